(** When two JSON documents say the same. *)
From Verif Require Import Base JsonComp.
From Coq Require Import Permutation.
Local Open Scope list_scope.

(** Objects have each key once. *)
Inductive document : json -> Prop :=
| doc_null : document JNull
| doc_bool b : document (JBool b)
| doc_num x : document (JNum x)
| doc_str s : document (JStr s)
| doc_list l : Forall document l -> document (JList l)
| doc_obj l : NoDup (map fst l) -> Forall (fun p => document (snd p)) l -> document (JObj l).

(** The number a document is, counting true and false as 1 and 0. *)
Definition as_number (j : json) : option Qc :=
  match j with JBool true => Some 1%Qc | JBool false => Some 0%Qc | JNum x => Some x | _ => None end.
(** The same up to the order of lists and of members, the difference between
    numbers and truth values, and between nothing in a list and in an object. *)
Inductive alike : json -> json -> Prop :=
| alike_null : alike JNull JNull
| alike_num x y n : as_number x = Some n -> as_number y = Some n -> alike x y
| alike_str s : alike (JStr s) (JStr s)
| alike_list l m m' : Permutation m m' -> Forall2 alike l m' -> alike (JList l) (JList m)
| alike_obj l m m' : Permutation m m' ->
    Forall2 (fun p q => fst p = fst q /\ alike (snd p) (snd q)) l m' -> alike (JObj l) (JObj m)
| alike_empty1 : alike (JList []) (JObj [])
| alike_empty2 : alike (JObj []) (JList []).

(** Documents whose lists hold only numbers, only texts, only rows of numbers, or
    one element. *)
Definition numeric (j : json) : Prop := exists n, as_number j = Some n.
Definition text (j : json) : Prop := exists s, j = JStr s.
Definition row (j : json) : Prop := exists r, j = JList r /\ Forall numeric r.
Inductive uniform : json -> Prop :=
| uniform_null : uniform JNull
| uniform_num x : numeric x -> uniform x
| uniform_text x : text x -> uniform x
| uniform_numbers l : Forall numeric l -> uniform (JList l)
| uniform_texts l : Forall text l -> uniform (JList l)
| uniform_rows l : Forall row l -> uniform (JList l)
| uniform_single x : uniform x -> uniform (JList [x])
| uniform_obj l : NoDup (map fst l) -> Forall (fun p => uniform (snd p)) l -> uniform (JObj l).
