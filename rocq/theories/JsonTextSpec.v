(** Words for the properties of session files as text. *)
From Verif Require Import Base JsonText.
Open Scope N_scope.

(** A Python string: every code point is one of Unicode's. *)
Definition code_points (s : pystr) : Prop := forall c, In c s -> c < 1114112.
(** Nowhere in [s] is a high surrogate followed by a low one. *)
Definition no_surrogate_pair (s : pystr) : Prop :=
  forall i a b, nth_error s i = Some a -> nth_error s (S i) = Some b ->
  ~ (55296 <= a < 56320 /\ 56320 <= b < 57344).
Definition proper_string (s : pystr) : Prop := code_points s /\ no_surrogate_pair s.

Definition digits (s : text) : Prop := forall c, In c s -> 48 <= N_of_ascii c <= 57.
(** The texts repr() gives for floats, and json's names for the others:
    a whole part without leading zeros, then a fraction, an exponent, or both. *)
Definition number_token (s : text) : Prop :=
  exists sign whole fraction exponent,
    s = (sign ++ whole ++ fraction ++ exponent)%list /\
    (sign = [] \/ sign = t "-") /\
    (whole = t "0" \/ exists c r, whole = (c :: r)%list /\ digits (c :: r) /\ c <> "0"%char) /\
    (fraction = [] \/ exists d, fraction = ("."%char :: d)%list /\ digits d /\ d <> []) /\
    (exponent = [] \/ exists sg d, exponent = ("e"%char :: sg ++ d)%list /\ (sg = [] \/ sg = t "+" \/ sg = t "-") /\ digits d /\ d <> []) /\
    (fraction <> [] \/ exponent <> []).
Definition float_token (s : text) : Prop :=
  s = t "NaN" \/ s = t "Infinity" \/ s = t "-Infinity" \/ number_token s.

(** Everything in [v] can be written: strings are strings, floats have a float's text,
    the keys of a dictionary are distinct and nothing is unknown to [default]. *)
Inductive writable : jt -> Prop :=
| w_null : writable TNull
| w_bool b : writable (TBool b)
| w_int z : writable (TInt z)
| w_float k : float_token k -> writable (TFloat k)
| w_str s : proper_string s -> writable (TStr s)
| w_list l : (forall x, In x l -> writable x) -> writable (TList l)
| w_dict d : NoDup (map fst d) -> (forall k x, In (k, x) d -> proper_string k /\ writable x) -> writable (TDict d).

(** [v] with null for what cannot be written. *)
Fixpoint mended (v : jt) : jt :=
  match v with
  | TBad => TNull
  | TList l => TList (map mended l)
  | TDict d => TDict (map (fun kv => (fst kv, mended (snd kv))) d)
  | v => v
  end.
(** Something in [v] cannot be written. *)
Inductive unwritable : jt -> Prop :=
| u_bad : unwritable TBad
| u_list l x : In x l -> unwritable x -> unwritable (TList l)
| u_dict d k x : In (k, x) d -> unwritable x -> unwritable (TDict d).

(** [p] is the beginning of [s], and not all of it. *)
Definition cut_short (p s : text) : Prop := exists q, q <> [] /\ s = (p ++ q)%list.
(** Only printable ASCII characters, and line ends when [nl]. *)
Definition plain (nl : bool) (s : text) : Prop :=
  forall c, In c s -> 32 <= N_of_ascii c <= 126 \/ nl = true /\ N_of_ascii c = 10.

(** A document with every kind of value; a string with a quote, a line end, an accent
    and a character beyond 16 bits. *)
Definition sample : jt :=
  TDict [([97; 34; 10; 233; 128512], TList [TInt 0; TInt (-120); TFloat (t "0.1"); TFloat (t "-1e-05"); TFloat (t "NaN"); TList []]);
         ([], TDict [([98], TNull)]); ([99], TBool true)].
Definition sample_bad : jt := TDict [([97], TInt 1); ([98], TList [TInt 2; TBad; TInt 3])].
