(** Facts about the pages of the documentation. *)
From Verif Require Import Base Command Execute Docs DocsSpec Page PageSpec.
From Verif Require DocsFacts.
Local Open Scope string_scope.

Lemma app_nil_s (a : string) : a ++ "" = a.
Proof. induction a; cbn [append]; congruence. Qed.
Lemma app_assoc_s (a b c : string) : (a ++ b) ++ c = a ++ b ++ c.
Proof. induction a; cbn [append]; congruence. Qed.
Lemma contains_app c a b : contains c (a ++ b) = (contains c a || contains c b)%bool.
Proof. induction a as [|x a IH]; cbn [append contains]; [reflexivity|]. now rewrite IH, orb_assoc. Qed.
Lemma split_line c s t : contains c s = false -> split_on c (s ++ String c t) = s :: split_on c t.
Proof.
  induction s as [|x s IH]; cbn [contains append split_on].
  - intros _. now rewrite Ascii.eqb_refl.
  - intros H. apply orb_false_iff in H as [H1 H2]. rewrite Ascii.eqb_sym, H1, IH by exact H2. reflexivity.
Qed.
Lemma split_println s t : contains nl s = false -> split_on nl (println s ++ t) = s :: split_on nl t.
Proof. intros H. unfold println, newline. rewrite app_assoc_s. cbn [append]. now apply split_line. Qed.
Lemma split_parts c s : Forall (fun x => contains c x = false) (split_on c s).
Proof.
  induction s as [|x s IH]; cbn [split_on]; [repeat constructor|]. destruct (Ascii.eqb x c) eqn:E; [constructor; [reflexivity|exact IH]|].
  destruct (split_on c s) as [|y r]; [repeat constructor; cbn [contains]; rewrite Ascii.eqb_sym, E; reflexivity|].
  inversion IH as [|? ? H1 H2]; subst. constructor; [|exact H2]. cbn [contains]. now rewrite Ascii.eqb_sym, E, H1.
Qed.

Lemma prefix_app a b : String.prefix a (a ++ b) = true.
Proof. induction a as [|c a IH]; cbn [append String.prefix]; [destruct b; reflexivity|]. destruct (ascii_dec c c); [exact IH|congruence]. Qed.
Lemma substring_all b : String.substring 0 (String.length b) b = b.
Proof. induction b; cbn [String.substring String.length]; congruence. Qed.
Lemma content_eight l : content (eight ++ l) = Some l.
Proof.
  unfold content. rewrite prefix_app. f_equal. unfold eight. cbn [append String.length]. change (S (S (S (S (S (S (S (S (String.length l)))))))) - 8)%nat with (String.length l - 0)%nat.
  rewrite Nat.sub_0_r. cbn [String.substring]. apply substring_all.
Qed.

(** Lines inside a block. *)
Lemma blocks_inside l : forall b rest, Forall writable l -> blocks (Some b) (map (String.append eight) l ++ rest) = blocks (Some (rev l ++ b)%list) rest.
Proof.
  induction l as [|x l IH]; intros b rest F; [reflexivity|]. inversion F as [|? ? [_ N] F']; subst.
  change (blocks (Some b) ((eight ++ x) :: (map (String.append eight) l ++ rest)) = blocks (Some (rev (x :: l) ++ b)%list) rest).
  cbn [blocks]. rewrite content_eight. apply String.eqb_neq in N. rewrite N, (IH _ _ F'). cbn [rev]. now rewrite <- app_assoc.
Qed.
Lemma split_lines_printed f l t : (forall x, f x = println (eight ++ x)) -> Forall (fun x => contains nl x = false) l ->
  split_on nl (printed (map f l) ++ t) = (map (String.append eight) l ++ split_on nl t)%list.
Proof.
  intros E. induction 1 as [|x l H F IH]; [reflexivity|]. cbn [map printed app]. rewrite E, app_assoc_s.
  rewrite split_println by (rewrite contains_app; exact H). now rewrite IH.
Qed.
Lemma closing t : split_on nl (println (eight ++ "```" ++ newline) ++ t) = ((eight ++ "```") :: "" :: split_on nl t).
Proof.
  unfold println. replace ((eight ++ "```" ++ newline) ++ newline) with (println (eight ++ "```") ++ newline) by reflexivity. rewrite app_assoc_s.
  rewrite split_println by reflexivity. f_equal. 
Qed.
Lemma closed b t : blocks (Some b) (split_on nl (println (eight ++ "```" ++ newline) ++ t)) = rev b :: blocks None (split_on nl t).
Proof. rewrite closing. cbn [blocks]. rewrite content_eight. cbn [String.eqb Ascii.eqb Bool.eqb]. reflexivity. Qed.

Lemma python_shown title body t : contains nl title = false -> Forall writable body ->
  blocks None (split_on nl (python_part title (map println body) ++ t)) = body :: blocks None (split_on nl t).
Proof.
  intros T F. unfold python_part. rewrite !app_assoc_s.
  rewrite split_println by (repeat (rewrite contains_app || cbn [contains]); rewrite T; reflexivity).
  rewrite split_println by reflexivity. rewrite split_println by reflexivity.
  assert (P : map (fun line => eight ++ line) (map println body) = map (fun x => println (eight ++ x)) body).
  { rewrite map_map. apply map_ext. intros x. unfold println. now rewrite app_assoc_s. }
  rewrite P, (split_lines_printed (fun x => println (eight ++ x))); [|reflexivity|eapply Forall_impl; [|exact F]; intros x [H _]; exact H].
  cbn [blocks]. replace (content ("??? example """ ++ title ++ """")) with (@None string) by reflexivity.
  replace (content "    === ""PYTHON""") with (@None string) by reflexivity. rewrite content_eight. cbn [String.prefix].
  destruct (ascii_dec "`" "`"); [|congruence]. rewrite blocks_inside by exact F. rewrite app_nil_r, closed, rev_involutive. reflexivity.
Qed.
Lemma dump_shown tab language dump t : contains nl tab = false -> contains nl language = false -> Forall (fun x => x <> "```") (split_on nl dump) ->
  blocks None (split_on nl (dump_part tab language dump ++ t)) = split_on nl dump :: blocks None (split_on nl t).
Proof.
  intros T L F. unfold dump_part, split_lines. rewrite !app_assoc_s.
  rewrite split_println by (repeat (rewrite contains_app || cbn [contains]); rewrite T; reflexivity).
  rewrite split_println by (repeat (rewrite contains_app || cbn [contains]); rewrite L; reflexivity).
  rewrite (split_lines_printed (fun x => println (eight ++ x))); [|reflexivity|apply split_parts].
  cbn [blocks]. replace (content ("    === """ ++ tab ++ """")) with (@None string) by reflexivity. rewrite content_eight. cbn [String.prefix append].
  destruct (ascii_dec "`" "`"); [|congruence]. cbn [String.prefix].
  rewrite blocks_inside.
  - rewrite app_nil_r, closed, rev_involutive. reflexivity.
  - pose proof (split_parts nl dump) as P. rewrite Forall_forall in *. intros x X. split; auto.
Qed.
Lemma empty_end : blocks None (split_on nl "") = [].
Proof. reflexivity. Qed.

Lemma whole_page title formats body ansi json : contains nl title = false -> Forall writable body ->
  Forall (fun x => x <> "```") (split_on nl ansi) -> Forall (fun x => x <> "```") (split_on nl json) ->
  exists p, page title formats (map println body) (Ok ansi) (Ok json) = (p, Ok tt) /\
    shown p = (body :: (if asked "ansi" formats then [split_on nl ansi] else []) ++ (if asked "json" formats then [split_on nl json] else []))%list.
Proof.
  intros T F A J. unfold page, shown. destruct (asked "ansi" formats), (asked "json" formats); (eexists; split; [reflexivity|]); rewrite ?app_assoc_s.
  - rewrite python_shown, dump_shown by (assumption || reflexivity). rewrite <- (app_nil_s (dump_part "JSON" _ _)), dump_shown by (assumption || reflexivity). reflexivity.
  - rewrite python_shown by assumption. rewrite <- (app_nil_s (dump_part _ _ _)), dump_shown by (assumption || reflexivity). reflexivity.
  - rewrite python_shown by assumption. rewrite <- (app_nil_s (dump_part _ _ _)), dump_shown by (assumption || reflexivity). reflexivity.
  - rewrite <- (app_nil_s (python_part _ _)), python_shown by assumption. reflexivity.
Qed.
Lemma failed_page title formats body ansi json e : contains nl title = false -> Forall writable body ->
  asked "ansi" formats = true -> ansi = Err e -> exists p, page title formats (map println body) ansi json = (p, Err e) /\ shown p = [body].
Proof.
  intros T F A ->. unfold page. rewrite A. eexists. split; [reflexivity|]. unfold shown.
  rewrite <- (app_nil_s (python_part _ _)), python_shown by assumption. reflexivity.
Qed.
Lemma failed_json title formats body ansi json d e : contains nl title = false -> Forall writable body -> Forall (fun x => x <> "```") (split_on nl d) ->
  asked "ansi" formats = true -> ansi = Ok d -> asked "json" formats = true -> json = Err e ->
  exists p, page title formats (map println body) ansi json = (p, Err e) /\ shown p = [body; split_on nl d].
Proof.
  intros T F D A -> J ->. unfold page. rewrite A, J. eexists. split; [reflexivity|]. unfold shown.
  rewrite python_shown by assumption. rewrite <- (app_nil_s (dump_part _ _ _)), dump_shown by (assumption || reflexivity). reflexivity.
Qed.

(** A blank line shorter than the indentation. *)
Lemma drop_short k s : (String.length s <= k)%nat -> drop k s = "".
Proof. revert s. induction k as [|k IH]; intros [|c s] H; cbn [drop String.length] in *; try reflexivity; [lia|]. apply IH. lia. Qed.
Lemma glued_code title body1 x body2 t : contains nl title = false -> Forall writable body1 -> writable (eight ++ x) -> Forall writable body2 ->
  blocks None (split_on nl (python_part title (map println body1 ++ "" :: println x :: map println body2) ++ t)) =
  (body1 ++ (eight ++ x)%string :: body2)%list :: blocks None (split_on nl t).
Proof.
  intros T F1 W F2.
  assert (E : python_part title (map println body1 ++ "" :: println x :: map println body2) = python_part title (map println (body1 ++ (eight ++ x)%string :: body2))).
  { unfold python_part. do 4 f_equal. rewrite !map_app. cbn [map].
    assert (P : forall a b, printed (a ++ b)%list = printed a ++ printed b) by (induction a; intros; cbn [app printed]; [reflexivity|]; now rewrite IHa, app_assoc_s).
    rewrite !P. cbn [printed]. f_equal. }
  rewrite E. apply python_shown; [exact T|]. apply Forall_app. split; [exact F1|]. constructor; assumption.
Qed.
Lemma unclosed title body : contains nl title = false -> Forall writable body ->
  shown (python_part title (map println body ++ [""])) = [(body ++ [(eight ++ "```")%string; ""; ""])%list].
Proof.
  intros T F. unfold shown.
  assert (E : python_part title (map println body ++ [""]) =
     println ("??? example """ ++ title ++ """") ++ println "    === ""PYTHON""" ++ println (eight ++ "``` python linenums=""1"" ") ++
     printed (map (fun x => println (eight ++ x)) body) ++ println (eight ++ eight ++ "```") ++ newline).
  { unfold python_part. do 3 f_equal. rewrite map_app. cbn [map].
    assert (P : forall a b, printed (a ++ b)%list = printed a ++ printed b) by (induction a; intros; cbn [app printed]; [reflexivity|]; now rewrite IHa, app_assoc_s).
    rewrite P. assert (Q : map (fun line => eight ++ line) (map println body) = map (fun x => println (eight ++ x)) body).
    { rewrite map_map. apply map_ext. intros x. unfold println. now rewrite app_assoc_s. }
    rewrite Q, app_assoc_s. reflexivity. }
  rewrite E. rewrite split_println by (repeat (rewrite contains_app || cbn [contains]); rewrite T; reflexivity).
  rewrite split_println by reflexivity. rewrite split_println by reflexivity.
  rewrite (split_lines_printed (fun x => println (eight ++ x))); [|reflexivity|eapply Forall_impl; [|exact F]; intros x [H _]; exact H].
  rewrite split_println by reflexivity. cbn [blocks]. replace (content ("??? example """ ++ title ++ """")) with (@None string) by reflexivity.
  replace (content "    === ""PYTHON""") with (@None string) by reflexivity. rewrite content_eight. cbn [String.prefix].
  destruct (ascii_dec "`" "`"); [|congruence]. rewrite blocks_inside by exact F. rewrite app_nil_r.
  cbn [blocks]. rewrite content_eight. change (split_on nl newline) with [""; ""]. cbn [String.eqb Ascii.eqb Bool.eqb eight append blocks].
  cbn [content String.prefix eight rev]. rewrite rev_involutive. now rewrite <- !app_assoc.
Qed.

(** ** From the source to the page *)
Local Open Scope nat_scope.
Lemma read_raw k rest : 0 < k -> (rest = [] \/ exists l r, rest = l :: r /\ ends k l) -> forall raw pre fuel line i,
  Forall (fun l => l <> "" /\ (has_text l = true -> k <= indent_of l)) raw -> line + i = length pre + 1 -> length raw < fuel ->
  read fuel (pre ++ raw ++ rest) line i k = Some (map (fun l => if String.eqb l newline then l else drop k l) raw).
Proof.
  intros K R. induction raw as [|l raw IH]; intros pre fuel line i F E L; destruct fuel as [|fuel]; try (cbn in L; lia).
  - cbn [map app read]. rewrite E. destruct (Nat.eqb_spec k 0); [lia|]. destruct R as [->|(l & r & -> & T & I)].
    + rewrite app_nil_r, Nat.add_1_r. cbn [getline]. rewrite nth_overflow by lia. now rewrite Bool.orb_true_r.
    + rewrite DocsFacts.getline_app. apply Nat.ltb_lt in I. now rewrite I, T.
  - inversion F as [|? ? [N H] F']; subst. cbn [map app read]. rewrite E, DocsFacts.getline_app. destruct (Nat.eqb_spec k 0); [lia|].
    apply String.eqb_neq in N. rewrite N, Bool.orb_false_r.
    replace (Nat.ltb (indent_of l) k && has_text l)%bool with false.
    + change (pre ++ l :: raw ++ rest)%list with (pre ++ [l] ++ raw ++ rest)%list. rewrite app_assoc, IH; [reflexivity|exact F'| |cbn in L; lia].
      rewrite app_length. cbn. lia.
    + destruct (has_text l); [|now rewrite andb_false_r]. specialize (H eq_refl). destruct (Nat.ltb_spec (indent_of l) k); [lia|reflexivity].
Qed.
Lemma code_raw k pre w first raw rest fuel : 0 < k -> (rest = [] \/ exists l r, rest = l :: r /\ ends k l) -> has_text first = true -> indent_of first = k ->
  Forall (fun l => l <> "" /\ (has_text l = true -> k <= indent_of l)) raw -> S (length raw) < fuel ->
  code fuel (pre ++ w :: first :: raw ++ rest) (length pre + 1) = Some (drop k first :: map (fun l => if String.eqb l newline then l else drop k l) raw).
Proof.
  intros K R T I F L. unfold code. destruct fuel as [|fuel]; [lia|]. cbn [read].
  assert (G : getline (pre ++ w :: first :: raw ++ rest) (length pre + 1 + 1) = first).
  { change (pre ++ w :: first :: raw ++ rest)%list with (pre ++ [w] ++ first :: raw ++ rest)%list. rewrite app_assoc.
    replace (length pre + 1) with (length (pre ++ [w])) by (rewrite app_length; reflexivity). apply DocsFacts.getline_app. }
  rewrite G, I, Nat.eqb_refl.
  assert (X : read fuel (pre ++ w :: first :: raw ++ rest) (length pre + 1) 2 k = Some (map (fun l => if String.eqb l newline then l else drop k l) raw)).
  { change (pre ++ w :: first :: raw ++ rest)%list with (pre ++ [w; first] ++ raw ++ rest)%list. rewrite app_assoc. apply read_raw; auto; [rewrite app_length; cbn; lia|lia]. }
  rewrite X. destruct (String.eqb_spec first newline) as [H|H]; [rewrite H in T; discriminate|reflexivity].
Qed.
Lemma has_text_newline s : has_text (println s) = has_text s.
Proof. unfold println. induction s as [|c s IH]; [reflexivity|]. cbn [append has_text]. now rewrite IH. Qed.
Lemma indent_newline s : has_text s = true -> indent_of (println s) = indent_of s.
Proof.
  unfold println. induction s as [|c s IH]; [discriminate|]. cbn [append has_text indent_of]. destruct (is_space c); [|reflexivity]. intros H. now rewrite IH.
Qed.
Lemma page_of_source k pre w body rest fuel title formats ansi json first more : 0 < k -> (rest = [] \/ exists l r, rest = l :: r /\ ends k l) ->
  body = first :: more -> has_text first = true -> indent_of first = 0 -> Forall (fun l => l = "" \/ has_text l = true) more -> Forall writable body -> S (length more) < fuel ->
  contains nl title = false -> Forall (fun x => x <> "```"%string) (split_on nl ansi) -> Forall (fun x => x <> "```"%string) (split_on nl json) ->
  exists lines p, code fuel (pre ++ w :: map (indented k) (map println body) ++ rest) (length pre + 1) = Some lines /\
    page title formats lines (Ok ansi) (Ok json) = (p, Ok tt) /\
    shown p = (body :: (if asked "ansi" formats then [split_on nl ansi] else []) ++ (if asked "json" formats then [split_on nl json] else []))%list.
Proof.
  intros K R -> T I F W L Ht A J. destruct (whole_page title formats (first :: more) ansi json Ht W A J) as (p & P & S).
  exists (map println (first :: more)), p. split; [|split; assumption]. cbn [map].
  apply DocsFacts.block_shown; [exact K|exact R|now rewrite has_text_newline|now rewrite indent_newline| |now rewrite map_length].
  apply Forall_map. eapply Forall_impl; [|exact F]. intros l [->|H]; [now left|right; now rewrite has_text_newline].
Qed.
(** A line of a few spaces, less than the indentation. *)
Lemma short_blank k j pre w first next rest fuel title : 0 < j < k -> (rest = [] \/ exists l r, rest = l :: r /\ ends k l) ->
  has_text first = true -> indent_of first = 0 -> has_text next = true -> writable first -> writable next -> writable (eight ++ next) -> 3 < fuel -> contains nl title = false ->
  exists lines, code fuel (pre ++ w :: (spaces k ++ println first)%string :: (spaces j ++ newline)%string :: (spaces k ++ println next)%string :: rest) (length pre + 1) = Some lines /\
    shown (python_part title lines) = [[first; (eight ++ next)%string]].
Proof.
  intros Jk R T I Tn W Wn W8 L Ht. exists [println first; ""; println next]. split.
  - change (pre ++ w :: (spaces k ++ println first)%string :: (spaces j ++ newline)%string :: (spaces k ++ println next)%string :: rest)%list with
      (pre ++ w :: (spaces k ++ println first)%string :: [(spaces j ++ newline)%string; (spaces k ++ println next)%string] ++ rest)%list.
    rewrite (code_raw k); [|lia|exact R|rewrite DocsFacts.text_spaces, has_text_newline; exact T|rewrite DocsFacts.indent_spaces, indent_newline, I by exact T; lia| |cbn; lia].
    + rewrite DocsFacts.drop_spaces. cbn [map]. do 2 f_equal.
      destruct j as [|j]; [lia|]. replace (String.eqb (spaces (S j) ++ newline) newline) with false by (cbn [spaces append]; reflexivity).
      rewrite drop_short by (clear - Jk; revert k Jk; induction j as [|j IH]; intros k Jk; [cbn; lia|]; destruct k; [lia|]; specialize (IH k); cbn [spaces append String.length] in *; lia).
      f_equal. destruct (String.eqb_spec (spaces k ++ println next) newline) as [E|E]; [|now rewrite DocsFacts.drop_spaces].
      rewrite <- has_text_newline, <- (DocsFacts.text_spaces k), E in Tn. discriminate.
    + repeat constructor.
      * destruct j; [lia|]. discriminate.
      * rewrite DocsFacts.text_spaces. discriminate.
      * destruct k; [lia|]. discriminate.
      * intros _. rewrite DocsFacts.indent_spaces. lia.
  - unfold shown. change [println first; ""; println next] with (map println [first] ++ "" :: println next :: map println [])%list.
    rewrite <- (app_nil_s (python_part _ _)), glued_code; [reflexivity|exact Ht|repeat constructor; apply W|exact W8|constructor].
Qed.
