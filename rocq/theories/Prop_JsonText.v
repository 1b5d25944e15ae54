(** C95: JSON documents as text. *)
From Verif Require Import Base JsonText JsonTextSpec JsonTextFacts JsonTextFacts2.

(** What is written reads back as it was, in both layouts. *)
Theorem C95_round_trip : forall st v, writable v -> (let* x := dumps st v in loads x) = Ok v.
Proof. exact loads_dumps. Qed.
Print Assumptions C95_round_trip.

(** Different documents have different texts. *)
Theorem C95_injective : forall st v w x, writable v -> writable w -> dumps st v = Ok x -> dumps st w = Ok x -> v = w.
Proof. exact dumps_injective. Qed.
Print Assumptions C95_injective.

(** Not every string: two surrogates in a row come back as one character. *)
Theorem C95_strings_refuted : ~ forall st s, code_points s -> (let* x := dumps st (TStr s) in loads x) = Ok (TStr s).
Proof. exact surrogates_lost. Qed.
Print Assumptions C95_strings_refuted.
Theorem C95_strings : forall st s, code_points s ->
  ((let* x := dumps st (TStr s) in loads x) = Ok (TStr s) <-> no_surrogate_pair s).
Proof. exact string_back. Qed.
Print Assumptions C95_strings.

(** Nothing is returned, and TypeError raised, exactly when something cannot be written. *)
Theorem C95_refusals : forall st v e, dumps st v = Err e <-> e = TypeError /\ unwritable v.
Proof. exact dumps_error. Qed.
Print Assumptions C95_refusals.

(** The text is printable ASCII, so that it does not depend on the encoding of files. *)
Theorem C95_ascii : forall v x, writable v -> dumps Compact v = Ok x -> plain false x.
Proof. exact (dumps_plain Compact). Qed.
Print Assumptions C95_ascii.
Theorem C95_ascii_lines : forall v x, writable v -> dumps Indented v = Ok x -> plain true x.
Proof. exact (dumps_plain Indented). Qed.
Print Assumptions C95_ascii_lines.

(** A text, a list or a dictionary that is cut short anywhere is refused. *)
Theorem C95_cut_short : forall st v x p, writable v ->
  match v with TStr _ | TList _ | TDict _ => True | _ => False end ->
  dumps st v = Ok x -> cut_short p x -> loads p = Err ValueError.
Proof. exact dumps_cut. Qed.
Print Assumptions C95_cut_short.

(** Reading a text ends, with a document or a ValueError. *)
Theorem C95_total : forall x e, loads x = Err e -> e = ValueError.
Proof. exact loads_errors. Qed.
Print Assumptions C95_total.

Example C95_case : writable sample /\
  dumps Compact sample = Ok (t "{""a\""\n\u00e9\ud83d\ude00"": [0, -120, 0.1, -1e-05, NaN, []], """": {""b"": null}, ""c"": true}").
Proof. split; [exact sample_writable|reflexivity]. Qed.
Example C95_case_indented : dumps Indented (TDict [([97%N], TList [TInt 1; TInt 2])]) =
  Ok (t "{" ++ ch 10 :: t "  ""a"": [" ++ ch 10 :: t "    1," ++ ch 10 :: t "    2" ++ ch 10 :: t "  ]" ++ ch 10 :: t "}")%list.
Proof. reflexivity. Qed.
Example C95_case_bad : unwritable sample_bad /\ write Compact 0 sample_bad = (t "{""a"": 1, ""b"": [2, ", false).
Proof. split; [exact sample_bad_unwritable|reflexivity]. Qed.
Example C95_case_read : loads (t " [1 , 2.5E3,""\/\u0041"", {""k"":1,""k"":2} ] ") =
  Ok (TList [TInt 1; TFloat (t "2.5E3"); TStr [47%N; 65%N]; TDict [([107%N], TInt 2)]]) /\
  loads (t "[1,]") = Err ValueError /\ loads (t "01") = Err ValueError /\ loads (t "1 2") = Err ValueError /\ loads [] = Err ValueError.
Proof. repeat split; reflexivity. Qed.
