(** What the cache of downloaded files should hold. *)
From Verif Require Import Base Download.
Local Open Scope list_scope.

Section Spec.
  Context {byte : Type} (decode : list byte -> string) (sv : @servers byte).
  (** What a file should hold is what the first server holds at its path, or what
      the second holds if that is a pointer. *)
  Definition complete (path : string) : option (list byte) :=
    match raw sv path with
    | None => None
    | Some content => if is_lfs_pointer decode content then media sv path else Some content
    end.
  Definition is_prefix (a b : list byte) : Prop := exists n, a = firstn n b.
  (** A call that is not cut while it writes; it may fail. *)
  Definition uncut (r : request) : Prop := forall n, q_trouble r <> Cut n.
  (** No file downloaded yet. *)
  Definition empty : @cache byte := fun _ => None.
End Spec.
