(** The texts of JSON documents, as Python's json.load takes them (gsp/io/json.py:87):
    a grammar, written without the reader of JsonText.v. *)
From Verif Require Import Base JsonText JsonTextSpec.
Open Scope N_scope.

(** Blanks: spaces, tabs and line ends. *)
Definition blanks (w : text) : Prop := forall c, In c w -> In (N_of_ascii c) [32; 9; 10; 13].

(** A hexadecimal digit, in small or capital letters. *)
Definition hexadecimal (c : ascii) (n : N) : Prop :=
  nth_error (t "0123456789abcdef") (N.to_nat n) = Some c \/ nth_error (t "0123456789ABCDEF") (N.to_nat n) = Some c.
(** The letters that may follow a backslash, and what they stand for. *)
Definition short_escapes : list (ascii * N) :=
  [("034"%char, 34); ("\"%char, 92); ("/"%char, 47); ("b"%char, 8); ("f"%char, 12); ("n"%char, 10); ("r"%char, 13); ("t"%char, 9)].
(** One character between quotes. *)
Inductive letter : N -> text -> Prop :=
| l_plain c : 32 <= N_of_ascii c -> c <> "034"%char -> c <> "\"%char -> letter (N_of_ascii c) [c]
| l_short c n : In (c, n) short_escapes -> letter n ["\"%char; c]
| l_code a b c d na nb nc nd : hexadecimal a na -> hexadecimal b nb -> hexadecimal c nc -> hexadecimal d nd ->
    letter (4096 * na + 256 * nb + 16 * nc + nd) ["\"%char; "u"%char; a; b; c; d].
Inductive letters : pystr -> text -> Prop :=
| ls_nil : letters [] []
| ls_cons n x s y : letter n x -> letters s y -> letters (n :: s) (x ++ y).
(** Two letters that are a pair of surrogates are one character. *)
Definition pair_of (a b : N) : Prop := 55296 <= a < 56320 /\ 56320 <= b < 57344.
Inductive joins : pystr -> pystr -> Prop :=
| j_nil : joins [] []
| j_pair a b r s : pair_of a b -> joins r s -> joins (a :: b :: r) (65536 + 1024 * (a - 55296) + (b - 56320) :: s)
| j_one a r s : (forall b r', r = (b :: r')%list -> ~ pair_of a b) -> joins r s -> joins (a :: r) (a :: s).
(** A string and its text, with the quotes. *)
Definition string_text (s : pystr) (x : text) : Prop :=
  exists u y, letters u y /\ joins u s /\ x = ("034"%char :: y ++ ["034"%char])%list.

(** The number a row of digits stands for. *)
Definition decimal (w : text) : Z := fold_left (fun n c => 10 * n + Z.of_N (N_of_ascii c) - 48)%Z w 0%Z.
(** Digits without needless zeros. *)
Definition whole_text (w : text) : Prop := w = t "0" \/ exists c r, w = (c :: r)%list /\ digits w /\ c <> "0"%char.
Definition fraction_text (f : text) : Prop := exists d, f = ("."%char :: d)%list /\ digits d /\ d <> [].
Definition exponent_text (x : text) : Prop :=
  exists e sg d, x = (e :: sg ++ d)%list /\ (e = "e"%char \/ e = "E"%char) /\ (sg = [] \/ sg = t "+" \/ sg = t "-") /\ digits d /\ d <> [].

(** The pairs of a dictionary: each key once, where it first was, with its last value. *)
Fixpoint firsts (l : list pystr) : list pystr :=
  match l with [] => [] | k :: r => k :: remove (list_eq_dec N.eq_dec) k (firsts r) end.
Definition last_value (ps : list (pystr * jt)) (k : pystr) (v : jt) : Prop :=
  exists l r, ps = (l ++ (k, v) :: r)%list /\ ~ In k (map fst r).
Definition of_pairs (ps d : list (pystr * jt)) : Prop :=
  map fst d = firsts (map fst ps) /\ forall k v, In (k, v) d -> last_value ps k v.

(** A value and its text. *)
Inductive value_text : jt -> text -> Prop :=
| v_null : value_text TNull (t "null")
| v_true : value_text (TBool true) (t "true")
| v_false : value_text (TBool false) (t "false")
| v_word w : In w [t "NaN"; t "Infinity"; t "-Infinity"] -> value_text (TFloat w) w
| v_int w : whole_text w -> value_text (TInt (decimal w)) w
| v_minus w : whole_text w -> value_text (TInt (- decimal w)) ("-"%char :: w)
| v_float sg w f e : sg = [] \/ sg = t "-" -> whole_text w -> f = [] \/ fraction_text f -> e = [] \/ exponent_text e ->
    (f ++ e <> [])%list -> value_text (TFloat (sg ++ w ++ f ++ e)) (sg ++ w ++ f ++ e)
| v_string s x : string_text s x -> value_text (TStr s) x
| v_list0 w : blanks w -> value_text (TList []) ("["%char :: w ++ ["]"%char])
| v_list xs y : items_text xs y -> value_text (TList xs) ("["%char :: y ++ ["]"%char])
| v_dict0 w : blanks w -> value_text (TDict []) ("{"%char :: w ++ ["}"%char])
| v_dict ps d y : pairs_text ps y -> of_pairs ps d -> value_text (TDict d) ("{"%char :: y ++ ["}"%char])
(** One or more values with commas between them, and blanks around each. *)
with items_text : list jt -> text -> Prop :=
| i_one v x w1 w2 : blanks w1 -> blanks w2 -> value_text v x -> items_text [v] (w1 ++ x ++ w2)
| i_more v x w1 w2 xs y : blanks w1 -> blanks w2 -> value_text v x -> items_text xs y ->
    items_text (v :: xs) (w1 ++ x ++ w2 ++ ","%char :: y)
(** One or more keys and values likewise. *)
with pairs_text : list (pystr * jt) -> text -> Prop :=
| p_one k z v x w1 w2 w3 w4 : blanks w1 -> blanks w2 -> blanks w3 -> blanks w4 -> string_text k z -> value_text v x ->
    pairs_text [(k, v)] (w1 ++ z ++ w2 ++ ":"%char :: w3 ++ x ++ w4)
| p_more k z v x w1 w2 w3 w4 ps y : blanks w1 -> blanks w2 -> blanks w3 -> blanks w4 -> string_text k z -> value_text v x ->
    pairs_text ps y -> pairs_text ((k, v) :: ps) (w1 ++ z ++ w2 ++ ":"%char :: w3 ++ x ++ w4 ++ ","%char :: y).
(** A document: one value with blanks around it. *)
Definition document (v : jt) (s : text) : Prop :=
  exists w1 x w2, blanks w1 /\ blanks w2 /\ value_text v x /\ s = (w1 ++ x ++ w2)%list.
