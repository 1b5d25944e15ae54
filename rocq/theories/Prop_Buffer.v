(** C69: what buffers hold.  C70: buffers of saved and sent sessions. *)
From Verif Require Import Base Base64 Buffer BufferSpec BufferFacts.
Local Open Scope nat_scope.
Local Open Scope list_scope.

Theorem C69_contents : forall c w d b mem l its, make c w d = Ok b -> holds mem d l -> 0 < w -> items_of w l its ->
  exists b' s, (forall fresh, array mem fresh b = Ok (b', s)) /\ bytes_of mem s = l /\
    (forall mem' fresh', array mem' fresh' b' = Ok (b', s)) /\ len b' = c /\
    (forall mem' l', holds mem' d l' -> bytes_of mem' s = l').
Proof. exact contents. Qed.
Print Assumptions C69_contents.
Theorem C69_bad_size : forall c w d b mem fresh l, make c w d = Ok b -> holds mem d l -> (forall its, ~ items_of w l its) ->
  array mem fresh b = Err ValueError.
Proof. exact bad_size. Qed.
Print Assumptions C69_bad_size.
Theorem C69_no_data : forall c w mem fresh, exists b b' s, make c w SNone = Ok b /\ array mem fresh b = Ok (b', s) /\ bytes_of mem s = fresh (c * w) /\
  forall mem' fresh', array mem' fresh' b' = Ok (b', s) /\ bytes_of mem' s = bytes_of mem s.
Proof. exact no_data. Qed.
Print Assumptions C69_no_data.
Theorem C69_text : forall c w l, all_bytes l -> make c w (SText (b64encode l)) = make c w (SBytes l).
Proof. exact same_as_text. Qed.
Print Assumptions C69_text.
Theorem C69_bad_text : forall c w t e, b64decode t = Err e -> make c w (SText t) = Err e.
Proof. exact bad_text. Qed.
Print Assumptions C69_bad_text.
Example C69_contents_text : exists b, make 2 2 (SText "AQIDBA==") = Ok b /\ holds (fun _ => []) (SText "AQIDBA==") [1; 2; 3; 4]%N /\
  items_of 2 [1; 2; 3; 4]%N [[1; 2]%N; [3; 4]%N] /\ all_bytes [1; 2; 3; 4]%N.
Proof. eexists. split; [reflexivity|]. split; [reflexivity|]. split; [split; [reflexivity|repeat constructor]|repeat constructor]. Qed.
Example C69_bad_size_3 : forall its, ~ items_of 2 [1; 2; 3]%N its.
Proof. intros its I. apply items_length in I. cbn in I. lia. Qed.

(** The length of a buffer is the number of its items when it was made for its data. *)
Theorem C69_length : forall c w l its, 0 < w -> items_of w l its -> (length its = c <-> length l = c * w).
Proof. exact right_len. Qed.
Print Assumptions C69_length.
(** It is whatever was given otherwise. *)
Theorem C69_length_refuted : forall c, exists b, make c 1 (SBytes [7%N]) = Ok b /\ len b = c /\
  items_of 1 [7%N] [[7%N]] /\ array (fun _ => []) (fun _ => []) b = Ok (mkBuffer c 1 (SBytes [7%N]) (Some (ShOwn [7%N])), ShOwn [7%N]).
Proof. intros c. eexists. repeat split. repeat constructor. Qed.
Print Assumptions C69_length_refuted.
(** The buffer of an array of [n] rows of [k] numbers of [w] bytes has [n * k] items but length [n]. *)
Theorem C69_rows_refuted : forall mem a n k w, 0 < w -> length (mem a) = n * k * w ->
  exists its, items_of w (mem a) its /\ length its = n * k /\ (length its = len (tracker_buffer a n w) <-> n = 0 \/ k = 1).
Proof. exact tracked_len. Qed.
Print Assumptions C69_rows_refuted.
Example C69_rows_vec3 : exists its, items_of 1 [1; 2; 3; 4; 5; 6]%N its /\ length its = 6 /\ len (tracker_buffer 0 2 1) = 2.
Proof. exists [[1]; [2]; [3]; [4]; [5]; [6]]%N. split; [split; [reflexivity|repeat constructor]|split; reflexivity]. Qed.

(** set_data never changes what a buffer shows. *)
Theorem C69_set_data_refuted : forall (b : buffer) offset (data : list N) mem fresh, array mem fresh (set_data b offset data) = array mem fresh b.
Proof. reflexivity. Qed.
Print Assumptions C69_set_data_refuted.

(** A List reads as its data; its length is that of its sizes, and is an error for one size. *)
Theorem C69_lists : forall l mem fresh, list_len l = match l_sizes l with OneSize _ => Err NameError | SizesIn b => Ok (len b) end /\
  match list_array mem fresh l, array mem fresh (l_data l) with
  | Ok (l', s), Ok (b', s') => s = s' /\ l_data l' = b' /\ l_sizes l' = l_sizes l
  | Err e, Err e' => e = e'
  | _, _ => False
  end.
Proof. exact lists. Qed.
Print Assumptions C69_lists.
Theorem C69_list_length_refuted : forall b n, list_len (mkList b (OneSize n)) = Err NameError /\ list_repr (mkList b (OneSize n)) = Err NameError.
Proof. split; reflexivity. Qed.
Print Assumptions C69_list_length_refuted.

Theorem C70_saved : forall mem l, (forall a, all_bytes (mem a)) -> Forall bytes_event l ->
  exists bs, replay [] (saved (history (opened mem) l)) = Ok bs /\
    Forall2 (fun ab b' => reads_same (s_mem (history (opened mem) l)) (snd ab) b') (s_buffers (history (opened mem) l)) bs.
Proof. exact saved_ok. Qed.
Print Assumptions C70_saved.
Theorem C70_sent : forall mem l, (forall a, all_bytes (mem a)) -> Forall bytes_event l -> unchanged_after mem l ->
  exists bs, replay [] (sent (opened mem) l) = Ok bs /\
    Forall2 (fun ab b' => reads_same (s_mem (history (opened mem) l)) (snd ab) b') (s_buffers (history (opened mem) l)) bs.
Proof. exact sent_same. Qed.
Print Assumptions C70_sent.
(** In general the receiver has what the arrays held when their buffers were made. *)
Theorem C70_sent_first : forall mem l, (forall a, all_bytes (mem a)) -> Forall bytes_event l ->
  replay [] (sent (opened mem) l) = Ok (map as_made (first_bytes mem l)).
Proof. exact sent_all. Qed.
Print Assumptions C70_sent_first.
Definition two (a : nat) : list N := match a with 0 => [1; 2]%N | _ => [] end.
Example C70_saved_some : let l := [ETrack 0 2 1; EAssign 0 [1; 9]%N [(0, (1, 2))]] in
  (forall a, all_bytes (two a)) /\ Forall bytes_event l /\
  replay [] (saved (history (opened two) l)) = Ok [mkBuffer 2 1 (SBytes [1; 9]%N) None].
Proof. cbn zeta. split; [intros [|a]; repeat constructor|]. split; [repeat constructor|reflexivity]. Qed.
(** An update made after a buffer has been sent never arrives. *)
Theorem C70_sent_refuted : let l := [ETrack 0 2 1; EAssign 0 [1; 9]%N [(0, (1, 2))]] in
  replay [] (sent (opened two) l) = Ok [mkBuffer 2 1 (SBytes [1; 2]%N) None] /\ s_mem (history (opened two) l) 0 = [1; 9]%N /\
  In (CSet 0 1 [9%N]) (s_log (history (opened two) l)).
Proof. repeat split. cbn. auto. Qed.
Print Assumptions C70_sent_refuted.

(** A receiver that did write the updates would hold the bytes of every array. *)
Theorem C70_updates : forall mem l, all_reported (opened mem) l ->
  kept_all (opened mem) [] l = map (fun ab => s_mem (history (opened mem) l) (fst ab)) (s_buffers (history (opened mem) l)).
Proof. exact kept_history. Qed.
Print Assumptions C70_updates.
Theorem C70_update_bytes : forall s a new reports, (forall r, In r reports -> snd (snd r) <= length new) ->
  exists cs, s_log (happens s (EAssign a new reports)) = s_log s ++ cs /\ Forall2 (carries new) reports cs.
Proof. exact update_carries. Qed.
Print Assumptions C70_update_bytes.
Example C70_updates_some : let l := [ETrack 0 2 1; ETrack 1 0 1; EAssign 0 [1; 9]%N [(0, (1, 2))]] in
  all_reported (opened two) l /\ kept_all (opened two) [] l = [[1; 9]%N; []].
Proof.
  cbn zeta. split; [|reflexivity]. split; [exact I|]. split; [exact I|]. split; [|exact I]. split; [reflexivity|]. split.
  - intros b st sp [H|[]]. injection H as <- <- <-. split; [cbn; lia|]. eexists. reflexivity.
  - intros b x [|[|[|k]]] Hb Hk; cbn in Hk; try congruence. exists 1, 2. destruct b as [|[|[|b]]]; cbn in Hb; try discriminate. split; [now left|lia].
Qed.
