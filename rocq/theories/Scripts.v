(** The scripts that run the examples and check what they produce: models
    scripts/check_expected_output.py:44-130 and scripts/run_all_examples.py. *)
From Verif Require Import Base JsonComp.
Local Open Scope list_scope.

(** Python's [str.endswith]. check_expected_output.py:104, run_all_examples.py:90. *)
Definition ends_with (suffix s : string) : bool :=
  let n := String.length s in
  let k := String.length suffix in
  (k <=? n)%nat && String.eqb (substring (n - k) k s) suffix.
(** The part of a text from its last dot on, if it has one. check_expected_output.py:65. *)
Fixpoint from_last_dot (s : string) : option string :=
  match s with
  | EmptyString => None
  | String c t => match from_last_dot t with
                  | Some r => Some r
                  | None => if Ascii.eqb c "." then Some s else None
                  end
  end.
(** A text without the dots it starts with, check_expected_output.py:65. *)
Fixpoint skip_dots (s : string) : string :=
  match s with String c t => if Ascii.eqb c "." then skip_dots t else s | EmptyString => s end.
(** [os.path.splitext(...)[1]] of a file name without directories: dots at the
    start do not count. check_expected_output.py:65. *)
Definition extension (s : string) : string :=
  match from_last_dot (skip_dots s) with Some r => r | None => EmptyString end.
(** Python's [str.lower], on ASCII letters. check_expected_output.py:65. *)
Definition lower_char (c : ascii) : ascii :=
  let n := nat_of_ascii c in if ((65 <=? n) && (n <=? 90))%nat then ascii_of_nat (n + 32) else c.
(** Python's [str.lower], check_expected_output.py:65. *)
Fixpoint lower (s : string) : string :=
  match s with EmptyString => EmptyString | String c t => String (lower_char c) (lower t) end.

Section Check.
  (** A file's contents; json.loads; scikit-image's structural similarity of two
      image files (check_expected_output.py:70-74). *)
  Context {bytes : Type} (same_bytes : bytes -> bytes -> bool)
          (loads : bytes -> res json) (similarity : bytes -> bytes -> res Qc).
  (** Line 78, [0.99]. check_expected_output.py:78. *)
  Definition threshold : Qc := Q2Qc (4458563631096791 # 4503599627370496).
  (** verify_file_content, check_expected_output.py:44-89. *)
  Definition verify (name : string) (expected output : bytes) : res bool :=
    let ext := lower (extension name) in
    if existsb (String.eqb ext) [".png"; ".jpg"; ".jpeg"]%string then
      let* score := similarity expected output in Ok (Qle_bool (this threshold) (this score))
    else if existsb (String.eqb ext) [".json"]%string then
      let* e := loads expected in
      let* o := loads output in
      deep_comp e o
    else Ok (same_bytes expected output).
  (** How the script ends: the last line printed with the number of files, an exit
      status, or an exception. check_expected_output.py:97-130. *)
  Inductive ending := Matched (n : nat) | Exit (code : nat) | Raised (e : exn).
  (** The names kept, check_expected_output.py:104. *)
  Definition checked (name : string) : bool := ends_with ".png" name || ends_with ".json" name.
  (** The loop, check_expected_output.py:106-130. *)
  Fixpoint check_all (output : string -> option bytes) (total : nat) (l : list (string * bytes)) : ending :=
    match l with
    | [] => Matched total
    | (name, expected) :: l' =>
        match output name with
        | None => Exit 1
        | Some o => match verify name expected o with
                    | Ok true => check_all output total l'
                    | Ok false => Exit 1
                    | Err e => Raised e
                    end
        end
    end.
  (** main, check_expected_output.py:97-130: the expected files in the order
      os.listdir gives them, and the files of the output folder. *)
  Definition check_main (expected : list (string * bytes)) (output : string -> option bytes) : ending :=
    let l := filter (fun p => checked (fst p)) expected in
    check_all output (length l) l.
End Check.

(** split_argv, run_all_examples.py:47-55. *)
Fixpoint index_of (x : string) (l : list string) : option nat :=
  match l with
  | [] => None
  | y :: l' => if String.eqb x y then Some 0%nat else match index_of x l' with Some i => Some (S i) | None => None end
  end.
(** run_all_examples.py:47-55. *)
Definition split_argv (argv : list string) : list string * list string :=
  match index_of "--" argv with
  | None => (skipn 1 argv, [])
  | Some i => (skipn 1 (firstn i argv), skipn (i + 1) argv)
  end.
(** Sorting of names, run_all_examples.py:91. *)
Fixpoint insert_name (x : string) (l : list string) : list string :=
  match l with [] => [x] | y :: l' => if str_lt x y then x :: l else y :: insert_name x l' end.
(** basenames.sort(), run_all_examples.py:91. *)
Fixpoint sort_names (l : list string) : list string :=
  match l with [] => [] | x :: l' => insert_name x (sort_names l') end.

Section RunAll.
  (** The exit status of an example given its arguments (run_all_examples.py:28-34). *)
  Variable status : string -> list string -> nat.
  (** launch_example, run_all_examples.py:13-40: line 26 passes the same keyword
      twice when the variable is already set in the environment. *)
  Definition launch (env : list string) (script : string) (args : list string) : res bool :=
    if existsb (String.eqb "GSP_SC_INTERACTIVE") env then Err TypeError
    else Ok (status script args =? 0)%nat.
  (** run_all_examples.py:98-114: what was launched, with success or not, and how
      the script ends. *)
  Fixpoint run_loop (env : list string) (stop : bool) (args : list string) (l : list string)
    : list (string * bool) * ending :=
    match l with
    | [] => ([], Exit 0)
    | s :: l' =>
        match launch env s args with
        | Err e => ([], Raised e)
        | Ok b => if negb b && stop then ([(s, b)], Exit 1)
                  else let '(done, e) := run_loop env stop args l' in ((s, b) :: done, e)
        end
    end.
  (** main, run_all_examples.py:57-114; [stop] is what argparse finds in the local
      arguments. *)
  Definition run_main (env : list string) (stop : bool) (argv : list string) (listing : list string) :=
    run_loop env stop (snd (split_argv argv)) (sort_names (filter (ends_with ".py") listing)).
End RunAll.
