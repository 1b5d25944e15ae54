(** C63, C64: the scripts that check the outputs and run the examples. *)
From Verif Require Import Base JsonComp JsonCompSpec Scripts ScriptsFacts.
From Coq Require Import Permutation Sorting.Sorted.
Local Open Scope list_scope.
Local Open Scope string_scope.

(** ** C63 *)
(** The check succeeds exactly when each expected image or JSON file is in the
    output folder and matches. *)
Theorem C63_passes_iff {bytes} same_bytes loads similarity (expected : list (string * bytes)) output n :
  check_main same_bytes loads similarity expected output = Matched n <->
  n = length (filter (fun p => ends_with ".png" (fst p) || ends_with ".json" (fst p)) expected) /\
  (forall name e, In (name, e) expected -> ends_with ".png" name || ends_with ".json" name = true ->
     exists o, output name = Some o /\ verify same_bytes loads similarity name e o = Ok true).
Proof. exact (check_iff same_bytes loads similarity expected output n). Qed.
Print Assumptions C63_passes_iff.
Theorem C63_any_order {bytes} same_bytes loads similarity (expected expected' : list (string * bytes)) output n :
  Permutation expected expected' ->
  check_main same_bytes loads similarity expected output = Matched n ->
  check_main same_bytes loads similarity expected' output = Matched n.
Proof. exact (check_order same_bytes loads similarity expected expected' output n). Qed.
Print Assumptions C63_any_order.
(** Files with the extension .json are compared as documents. *)
Theorem C63_json_files {bytes} same_bytes loads similarity name (e o : bytes) x y :
  extension name = ".json" -> loads e = Ok x -> loads o = Ok y ->
  verify same_bytes loads similarity name e o = deep_comp x y.
Proof. exact (verify_json same_bytes loads similarity name e o x y). Qed.
Print Assumptions C63_json_files.
(** Images are alike from a similarity of 0.99 on. *)
Theorem C63_images {bytes} same_bytes loads similarity name (e o : bytes) score : lower (extension name) = ".png" ->
  similarity e o = Ok score ->
  (verify same_bytes loads similarity name e o = Ok true <-> (threshold <= score)%Qc) /\
  (verify same_bytes loads similarity name e o = Ok false <-> (score < threshold)%Qc).
Proof. exact (verify_image same_bytes loads similarity name e o score). Qed.
Print Assumptions C63_images.
(** Images that cannot be compared, as when their sizes differ, end the check. *)
Theorem C63_not_compared {bytes} same_bytes loads similarity name (e o : bytes) x : lower (extension name) = ".png" ->
  similarity e o = Err x -> verify same_bytes loads similarity name e o = Err x.
Proof. exact (verify_not_made same_bytes loads similarity name e o x). Qed.
Print Assumptions C63_not_compared.
(** A file with another extension, or none as one named just .json, has to be the
    same to the byte. *)
Theorem C63_other_files {bytes} same_bytes loads similarity name (e o : bytes) :
  ~ In (lower (extension name)) [".png"; ".jpg"; ".jpeg"; ".json"] ->
  (verify same_bytes loads similarity name e o = Ok true <-> same_bytes e o = true) /\
  (verify same_bytes loads similarity name e o = Ok false <-> same_bytes e o = false).
Proof. exact (verify_other same_bytes loads similarity name e o). Qed.
Print Assumptions C63_other_files.
(** What the endings of names mean. *)
Theorem C63_ends_with suffix s : ends_with suffix s = true <-> exists p, s = (p ++ suffix)%string.
Proof. exact (ends_iff suffix s). Qed.
Print Assumptions C63_ends_with.
Definition ex_loads (s : string) : res json := if String.eqb s "1" then Ok (JNum 1) else if String.eqb s "true" then Ok (JBool true) else Err ValueError.
Definition ex_sim (s t : string) : res Qc := Ok (if String.eqb s t then 1 else 0)%Qc.
Definition ex_out (s : string) : option string := if String.eqb s "a.json" then Some "true" else if String.eqb s "b.png" then Some "image" else None.
Example C63_example :
  check_main String.eqb ex_loads ex_sim [("b.png", "image"); ("notes.txt", "x"); ("a.json", "1")] ex_out = Matched 2 /\
  check_main String.eqb ex_loads ex_sim [("b.png", "picture"); ("a.json", "1")] ex_out = Exit 1 /\
  check_main String.eqb ex_loads ex_sim [("c.png", "image")] ex_out = Exit 1 /\
  extension "a.json" = ".json" /\ extension "a.b.png" = ".png" /\ extension ".json" = "".
Proof. repeat split. Qed.
(** Expected images named in capitals are not looked at, though the comparison
    knows them as images. *)
Theorem C63_capitals_refuted :
  check_main String.eqb ex_loads ex_sim [("B.PNG", "picture")] ex_out = Matched 0 /\
  verify String.eqb ex_loads ex_sim "B.PNG" "picture" "image" = Ok false.
Proof. split; reflexivity. Qed.
Print Assumptions C63_capitals_refuted.

(** ** C64 *)
(** Arguments before the first [--] are the script's, those after are the
    examples'. *)
Theorem C64_arguments prog args : prog <> "--" ->
  (~ In "--" args /\ split_argv (prog :: args) = (args, [])) \/
  (exists l m, args = (l ++ "--" :: m)%list /\ ~ In "--" l /\ split_argv (prog :: args) = (l, m)).
Proof. exact (split_ok prog args). Qed.
Print Assumptions C64_arguments.
(** The examples are run in the order of their names, each once. *)
Theorem C64_sorted l : Permutation l (sort_names l) /\ StronglySorted (fun s t => str_lt t s = false) (sort_names l).
Proof. exact (sort_names_ok l). Qed.
Print Assumptions C64_sorted.
Theorem C64_runs_all status env args l : existsb (String.eqb "GSP_SC_INTERACTIVE") env = false ->
  run_loop status env false args l = (map (fun s => (s, status s args =? 0)%nat) l, Exit 0).
Proof. intros E. exact (run_all status env args E l). Qed.
Print Assumptions C64_runs_all.
(** Asked to stop, the script stops at the first failure and reports it. *)
Theorem C64_stops status env args l : existsb (String.eqb "GSP_SC_INTERACTIVE") env = false ->
  let success s := (status s args =? 0)%nat in
  (forallb success l = true /\ run_loop status env true args l = (map (fun s => (s, true)) l, Exit 0)) \/
  (exists l1 s l2, l = (l1 ++ s :: l2)%list /\ forallb success l1 = true /\ success s = false /\
     run_loop status env true args l = ((map (fun s => (s, true)) l1 ++ [(s, false)])%list, Exit 1)).
Proof. intros E. exact (run_stop status env args E l). Qed.
Print Assumptions C64_stops.
Definition ex_status (s : string) (args : list string) : nat := if String.eqb s "b.py" then 1 else 0.
Example C64_example :
  run_main ex_status ["HOME"] true ["run.py"; "--stop-on-error"; "--"; "matplotlib_image"] ["c.py"; "b.py"; "x.txt"; "a.py"]
  = ([("a.py", true); ("b.py", false)], Exit 1).
Proof. reflexivity. Qed.
(** Not asked to, it reports success even when examples fail. *)
Theorem C64_failures_reported_refuted :
  run_main ex_status [] false ["run.py"] ["c.py"; "b.py"; "a.py"] = ([("a.py", true); ("b.py", false); ("c.py", true)], Exit 0).
Proof. reflexivity. Qed.
Print Assumptions C64_failures_reported_refuted.
(** With the variable already set nothing is run. *)
Theorem C64_environment_refuted status env stop args l :
  existsb (String.eqb "GSP_SC_INTERACTIVE") env = true -> l <> [] ->
  run_loop status env stop args l = ([], Raised TypeError).
Proof. exact (run_raises status env stop args l). Qed.
Print Assumptions C64_environment_refuted.

(** The extension is compared without regard to capitals. *)
Theorem C63_lower : forall c,
  (forall i, String.get i "ABCDEFGHIJKLMNOPQRSTUVWXYZ" = Some c -> String.get i "abcdefghijklmnopqrstuvwxyz" = Some (lower_char c)) /\
  ((forall i, String.get i "ABCDEFGHIJKLMNOPQRSTUVWXYZ" <> Some c) -> lower_char c = c).
Proof. exact lower_letters. Qed.
Print Assumptions C63_lower.
Example C63_lower_png : lower ".PnG" = ".png".
Proof. reflexivity. Qed.
