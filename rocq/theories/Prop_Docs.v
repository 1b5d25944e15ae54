(** C86: the code shown in the documentation. *)
From Verif Require Import Base Docs DocsSpec DocsFacts.
Local Open Scope string_scope.
Local Open Scope nat_scope.

(** The code of a block is shown line by line, without its indentation. *)
Theorem C86_block_partial k pre w first body rest fuel : 0 < k -> (rest = [] \/ exists l r, rest = l :: r /\ ends k l) ->
  has_text first = true -> indent_of first = 0 -> Forall line_ok body -> S (length body) < fuel ->
  code fuel (pre ++ w :: map (indented k) (first :: body) ++ rest) (length pre + 1) = Some (first :: body).
Proof. exact (fun K => block_shown k K pre w first body rest fuel). Qed.
Print Assumptions C86_block_partial.
(** After an empty line first, all the indentation but one character stays ... *)
Theorem C86_empty_first_refuted k pre w body rest fuel : 1 < k -> (rest = [] \/ exists l r, rest = l :: r /\ ends 1 l) -> Forall line_ok body -> S (length body) < fuel ->
  code fuel (pre ++ w :: map (indented k) (newline :: body) ++ rest) (length pre + 1) = Some (map (indented (k - 1)) (newline :: body)).
Proof. exact (empty_first k pre w body rest fuel). Qed.
Print Assumptions C86_empty_first_refuted.
(** ... a line less indented, as inside a string or brackets, ends the block ... *)
Theorem C86_cut_short_refuted k pre w first body cut more fuel : 0 < k -> has_text first = true -> indent_of first = 0 -> Forall line_ok body -> ends k cut -> S (length body) < fuel ->
  code fuel (pre ++ w :: map (indented k) (first :: body) ++ cut :: more) (length pre + 1) = Some (first :: body).
Proof. exact (cut_short k pre w first body cut more fuel). Qed.
Print Assumptions C86_cut_short_refuted.
(** ... and without the source at hand the block is never left. *)
Theorem C86_terminates_refuted file line fuel : length file <= line -> code fuel file line = None.
Proof. exact (no_source file line fuel). Qed.
Print Assumptions C86_terminates_refuted.

Example C86_case : let body := [ln "for i in range(3):"; newline; ln "    print(i)"; newline] in
  Forall line_ok body /\ ends 4 (ln "print('done')") /\
  code 9 ([ln "import gsp"] ++ ln "with mkdocs():" :: map (indented 4) (ln "x = 1" :: body) ++ [ln "print('done')"]) 2 = Some (ln "x = 1" :: body) /\
  code 9 (ln "with mkdocs():" :: map (indented 4) (newline :: [ln "x = 1"]) ++ [ln "y"]) 1 = Some [newline; ln "   x = 1"] /\
  code 100 [ln "with mkdocs():"] 1 = None.
Proof.
  cbn zeta. split; [|split; [split; vm_compute; [reflexivity|lia]|repeat split; vm_compute; reflexivity]].
  repeat (constructor; [solve [left; reflexivity | right; reflexivity]|]). constructor.
Qed.

(** Lines end with a line feed; spaces, tabs and line feeds are blank. *)
Theorem C86_blanks : newline = String (ascii_of_nat 10) "" /\
  forall c, is_space c = true <-> In (nat_of_ascii c) [9; 10; 32].
Proof. exact blanks. Qed.
Print Assumptions C86_blanks.
