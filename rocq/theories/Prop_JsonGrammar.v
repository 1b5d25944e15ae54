(** C103: which texts are JSON documents, and what they say. *)
From Verif Require Import Base JsonText JsonTextSpec JsonGrammarSpec JsonGrammarFacts.
Open Scope N_scope.

(** A text is read as a value exactly when the grammar has it as a text of that value. *)
Theorem C103_reads : forall s v, loads s = Ok v <-> document v s.
Proof. exact reads_spec. Qed.
Print Assumptions C103_reads.

(** Every other text is refused with ValueError. *)
Theorem C103_refused : forall s, loads s = Err ValueError <-> ~ exists v, document v s.
Proof. exact refused_spec. Qed.
Print Assumptions C103_refused.

(** No text says two things. *)
Theorem C103_unambiguous : forall s v w, document v s -> document w s -> v = w.
Proof. exact unambiguous. Qed.
Print Assumptions C103_unambiguous.

(** What is written is in the grammar. *)
Theorem C103_written : forall st v x, writable v -> dumps st v = Ok x -> document v x.
Proof. exact written_is_document. Qed.
Print Assumptions C103_written.

Example C103_case : document (TDict [([107], TInt 3); ([97], TStr [128512; 10])]) (t " {""k"": 1,""a"" : ""\uD83d\uDe00\n"", ""k"":3 }").
Proof. apply C103_reads. vm_compute. reflexivity. Qed.
Example C103_case_numbers : document (TList [TInt (-12); TFloat (t "1E+2"); TFloat (t "-0.50"); TFloat (t "-Infinity")]) (t "[-12, 1E+2, -0.50,-Infinity]").
Proof. apply C103_reads. vm_compute. reflexivity. Qed.
Example C103_case_refused : forall s, In s [t "1 2"; t "[1,]"; t "01"; t "{a: 1}"; t """\x"""; t "+1"; t ".5"; t ""; t "nul"] -> ~ exists v, document v s.
Proof.
  intros s H. apply C103_refused. repeat (destruct H as [<-|H]; [vm_compute; reflexivity|]). destruct H.
Qed.
Example C103_case_written : dumps Compact (TList [TStr [233]; TNull]) = Ok (t "[""\u00e9"", null]") /\ document (TList [TStr [233]; TNull]) (t "[""\u00e9"", null]").
Proof. split; [reflexivity|]. apply C103_reads. vm_compute. reflexivity. Qed.
