(** The comparison of JSON documents: scripts/check_expected_output.py:18-41.

    Simplifications: numbers are rationals (json.loads also reads NaN and
    Infinity); characters are bytes. *)
From Verif Require Import Base.
From Coq Require Export QArith Qcanon.
Local Open Scope list_scope.

(** What json.loads gives: the keys of an object are different. check_expected_output.py:18-41. *)
Inductive json :=
| JNull
| JBool (b : bool)
| JNum (x : Qc)
| JStr (s : string)
| JList (l : list json)
| JObj (l : list (string * json)).

(** What json_reordered gives: nothing, numbers, texts, lists and, in the list
    made of an object, pairs.  Python's [True] and [False] are the numbers 1 and 0
    for [==] and [<]. check_expected_output.py:31-37. *)
Inductive val :=
| ANone
| ANum (x : Qc)
| AStr (s : string)
| AList (l : list val)
| ATup (k : string) (v : val).

(** Python's [==] on such values. check_expected_output.py:41. *)
Fixpoint aeq (a b : val) : bool :=
  match a, b with
  | ANone, ANone => true
  | ANum x, ANum y => Qeq_bool (this x) (this y)
  | AStr s, AStr t => String.eqb s t
  | AList l, AList m =>
      (fix go (l m : list val) : bool :=
         match l, m with
         | [], [] => true
         | x :: l', y :: m' => aeq x y && go l' m'
         | _, _ => false
         end) l m
  | ATup k v, ATup k' v' => String.eqb k k' && aeq v v'
  | _, _ => false
  end.

(** Python's < on texts, check_expected_output.py:33 and 35. *)
Definition str_lt (s t : string) : bool := match String.compare s t with Lt => true | _ => false end.
(** Python's < on numbers, check_expected_output.py:33 and 35. *)
Definition num_lt (x y : Qc) : bool := negb (Qle_bool (this y) (this x)).
(** Python's [<] on such values: lists and pairs are compared at the first place
    where they differ. check_expected_output.py:33 and 35. *)
Fixpoint alt (a b : val) : res bool :=
  match a, b with
  | ANum x, ANum y => Ok (num_lt x y)
  | AStr s, AStr t => Ok (str_lt s t)
  | AList l, AList m =>
      (fix go (l m : list val) : res bool :=
         match l, m with
         | _, [] => Ok false
         | [], _ :: _ => Ok true
         | x :: l', y :: m' => if aeq x y then go l' m' else alt x y
         end) l m
  | ATup k v, ATup k' v' =>
      if String.eqb k k' then (if aeq v v' then Ok false else alt v v') else Ok (str_lt k k')
  | _, _ => Err TypeError
  end.
(** Python's sorted, as an insertion sort.  Which pairs are compared depends on
    the algorithm, but not whether a comparison fails nor, when none does, the
    result ([sorted_all_comparable], [sorted_unique] in JsonCompFacts.v).
    check_expected_output.py:33 and 35. *)
Fixpoint insert (x : val) (l : list val) : res (list val) :=
  match l with
  | [] => Ok [x]
  | y :: l' => let* b := alt x y in if b then Ok (x :: l) else let* r := insert x l' in Ok (y :: r)
  end.
(** Python's sorted, check_expected_output.py:33 and 35. *)
Fixpoint sorted (l : list val) : res (list val) :=
  match l with [] => Ok [] | x :: l' => let* r := sorted l' in insert x r end.

(** The generators of check_expected_output.py:33 and 35. *)
Definition collect {A B} (f : A -> res B) : list A -> res (list B) :=
  fix go (l : list A) : res (list B) :=
  match l with [] => Ok [] | x :: l' => let* y := f x in let* r := go l' in Ok (y :: r) end.
(** json_reordered, check_expected_output.py:31-37. *)
Fixpoint reordered (j : json) : res val :=
  match j with
  | JNull => Ok ANone
  | JBool b => Ok (ANum (if b then 1 else 0)%Qc)
  | JNum x => Ok (ANum x)
  | JStr s => Ok (AStr s)
  | JList l => let* r := collect reordered l in let* s := sorted r in Ok (AList s)
  | JObj l => let* r := collect (fun p => let* v := reordered (snd p) in Ok (ATup (fst p) v)) l in
              let* s := sorted r in Ok (AList s)
  end.
(** json_deep_comp, check_expected_output.py:18-41. *)
Definition deep_comp (x y : json) : res bool :=
  let* a := reordered x in
  let* b := reordered y in
  Ok (aeq a b).
