(** C53: the cache of downloaded files. *)
From Verif Require Import Base Download DownloadSpec DownloadFacts.
Local Open Scope list_scope.
Local Open Scope string_scope.

(** A pointer is a text that starts with its version and names a hash. *)
Theorem C53_pointer {byte} (decode : list byte -> string) content :
  is_lfs_pointer decode content = true <->
  (exists r, decode content = ("version https://git-lfs.github.com" ++ r)%string) /\
  (exists a b, decode content = (a ++ "oid sha256:" ++ b)%string).
Proof. exact (pointer_iff decode content). Qed.
Print Assumptions C53_pointer.
(** A call cut while it writes leaves a partial file that the next call returns:
    whatever the file, and wherever before its end the call is cut. *)
Theorem C53_complete_refuted {byte} decode (sv : @servers byte) path full n :
  complete decode sv path = Some full -> n < length full ->
  exists c c' content,
  download decode sv empty path false (Cut n) = (c, Err RuntimeErr) /\
  download decode sv c path false Fine = (c', Ok path) /\
  c' path = Some content /\ complete decode sv path <> Some content.
Proof. exact (cut_refuted decode sv path full n). Qed.
Print Assumptions C53_complete_refuted.
(** The partial file stays until a call is forced, even where a complete file
    was before. *)
Theorem C53_cut_stays {byte} decode (sv : @servers byte) c path force n full l t :
  complete decode sv path = Some full -> c path = None \/ force = true ->
  Forall (fun r => q_force r = false) l ->
  exists c', download decode sv (downloads decode sv (fst (download decode sv c path force (Cut n))) l) path false t = (c', Ok path) /\
    c' path = Some (firstn n full).
Proof. exact (cut_stays decode sv c path force n full l t). Qed.
Print Assumptions C53_cut_stays.
(** Without cuts while writing, whatever requests failed, files are complete. *)
Theorem C53_complete {byte} decode (sv : @servers byte) l path force t c' r : Forall uncut l ->
  download decode sv (downloads decode sv empty l) path force t = (c', Ok r) ->
  exists content, c' path = Some content /\ complete decode sv path = Some content.
Proof. exact (no_cut decode sv l path force t c' r). Qed.
Print Assumptions C53_complete.
(** After any calls, cut or not, a call that succeeds gives the beginning of the
    complete contents, and all of them if forced. *)
Theorem C53_prefix {byte} decode (sv : @servers byte) l path force t c' r :
  download decode sv (downloads decode sv empty l) path force t = (c', Ok r) ->
  exists content full, c' path = Some content /\ complete decode sv path = Some full /\ is_prefix content full /\
    (force = true -> content = full).
Proof. exact (after_any decode sv l path force t c' r). Qed.
Print Assumptions C53_prefix.
(** The path returned is the one asked for; a file already there is not touched,
    nor any other file. *)
Theorem C53_success {byte} decode (sv : @servers byte) c path force t c' r :
  download decode sv c path force t = (c', Ok r) ->
  r = path /\ exists content, c' path = Some content /\
    ((c path = None \/ force = true) -> complete decode sv path = Some content).
Proof. exact (success decode sv c path force t c' r). Qed.
Print Assumptions C53_success.
Theorem C53_cached {byte} decode (sv : @servers byte) c path t content :
  c path = Some content -> download decode sv c path false t = (c, Ok path).
Proof. exact (cached decode sv c path t content). Qed.
Print Assumptions C53_cached.
Theorem C53_others_kept {byte} decode (sv : @servers byte) c path force t p :
  p <> path -> fst (download decode sv c path force t) p = c p.
Proof. exact (others_kept decode sv c path force t p). Qed.
Print Assumptions C53_others_kept.
Theorem C53_available {byte} decode (sv : @servers byte) c path force full : complete decode sv path = Some full ->
  exists c', download decode sv c path force Fine = (c', Ok path).
Proof. exact (fine decode sv c path force full). Qed.
Print Assumptions C53_available.
Definition ex_servers : @servers ascii :=
  mkServers (fun p => if String.eqb p "a" then Some (list_ascii_of_string "version https://git-lfs.github.com/spec/v1 oid sha256:0")
                      else Some (list_ascii_of_string "text"))
            (fun p => Some (list_ascii_of_string "large")).
Example C53_example :
  (let c := downloads string_of_list_ascii ex_servers empty
       [mkReq "a" false NoMedia; mkReq "b" false NoRaw; mkReq "a" false Fine; mkReq "b" false NoMedia] in
   (option_map string_of_list_ascii (c "a"), option_map string_of_list_ascii (c "b"))) = (Some "large", Some "text").
Proof. reflexivity. Qed.
(** A pointer starts with its version and names a hash. *)
Example C53_example_pointer :
  is_lfs_pointer string_of_list_ascii (list_ascii_of_string "version https://git-lfs.github.com/spec/v1 oid sha256:0") = true /\
  is_lfs_pointer string_of_list_ascii (list_ascii_of_string " version https://git-lfs.github.com/spec/v1 oid sha256:0") = false /\
  is_lfs_pointer string_of_list_ascii (list_ascii_of_string "version https://git-lfs.github.com/spec/v1") = false.
Proof. repeat split. Qed.
Example C53_example_cut :
  (let c := downloads string_of_list_ascii ex_servers empty
       [mkReq "a" false (Cut 3); mkReq "b" false Fine; mkReq "b" true (Cut 0); mkReq "a" false Fine] in
   (option_map string_of_list_ascii (c "a"), option_map string_of_list_ascii (c "b"))) = (Some "lar", Some "").
Proof. reflexivity. Qed.
