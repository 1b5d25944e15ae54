(** The cache of downloaded files: examples/common/asset_downloader.py.

    Simplifications: the cache is a function from paths to contents, and its
    directories (line 58) can be made; a server's answer to one request arrives
    whole or the request fails, except for the second, streamed one; what is
    printed is left out. *)
From Verif Require Import Base.
Local Open Scope list_scope.

Section Download.
  Context {byte : Type}.
  (** [content.decode('utf-8', errors='ignore')]. *)
  Variable decode : list byte -> string.

  (** Python's [str.startswith] and [in]. asset_downloader.py:32. *)
  Fixpoint starts_with (p s : string) : bool :=
    match p, s with
    | EmptyString, _ => true
    | String a p', String b s' => Ascii.eqb a b && starts_with p' s'
    | String _ _, EmptyString => false
    end.
  (** [text in text], asset_downloader.py:32. *)
  Fixpoint occurs (p s : string) : bool :=
    starts_with p s || match s with EmptyString => false | String _ s' => occurs p s' end.
  (** is_lfs_pointer, asset_downloader.py:27-32. *)
  Definition is_lfs_pointer (content : list byte) : bool :=
    let text := decode content in
    starts_with "version https://git-lfs.github.com" text && occurs "oid sha256:" text.

  (** The two servers: what they hold at a path. asset_downloader.py:21-22, 63 and 73. *)
  Record servers := mkServers { raw : string -> option (list byte); media : string -> option (list byte) }.
  (** The files of the cache directory, asset_downloader.py:56-57. *)
  Definition cache := string -> option (list byte).
  (** A file written, asset_downloader.py:77-79 and 83-84. *)
  Definition put (c : cache) (path : string) (content : list byte) : cache :=
    fun p => if String.eqb p path then Some content else c p.

  (** What may go wrong during one call: nothing; the first request fails; the
      second does; the connection is lost, the disk full or the program ended once
      the file is open and holds its first [n] bytes. asset_downloader.py:66-87. *)
  Inductive trouble := Fine | NoRaw | NoMedia | Cut (n : nat).
  (** Writing the file, asset_downloader.py:77-79 and 83-84. *)
  Definition write (t : trouble) (c : cache) (path : string) (content : list byte) : cache * res string :=
    match t with
    | Cut n => (put c path (firstn n content), Err RuntimeErr)
    | _ => (put c path content, Ok path)
    end.
  (** download_data, asset_downloader.py:35-90; a missing file is an error
      (raise_for_status, lines 68 and 76). *)
  Definition download (sv : servers) (c : cache) (path : string) (force : bool) (t : trouble) : cache * res string :=
    match c path, force with
    | Some _, false => (c, Ok path)
    | _, _ =>
        match t, raw sv path with
        | NoRaw, _ => (c, Err RuntimeErr)
        | _, None => (c, Err RuntimeErr)
        | _, Some content =>
            if is_lfs_pointer content then
              match t, media sv path with
              | NoMedia, _ => (c, Err RuntimeErr)
              | _, None => (c, Err RuntimeErr)
              | _, Some content => write t c path content
              end
            else write t c path content
        end
    end.
  (** Calls one after the other. asset_downloader.py:35. *)
  Record request := mkReq { q_path : string; q_force : bool; q_trouble : trouble }.
  (** Calls of download_data in order, asset_downloader.py:35-90. *)
  Fixpoint downloads (sv : servers) (c : cache) (l : list request) : cache :=
    match l with
    | [] => c
    | r :: l' => downloads sv (fst (download sv c (q_path r) (q_force r) (q_trouble r))) l'
    end.
End Download.
