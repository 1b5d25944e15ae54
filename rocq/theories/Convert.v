(** The converter registry.  Models gsp/io/convert.py:6-142. *)
From Verif Require Import Base.
Open Scope string_scope.

(** A converter function is known by a number; what it computes is an oracle
    passed to [convert]. Registered at gsp/io/convert.py:57 and 64. *)
Definition func := nat.

(** [converters], gsp/io/convert.py:6: keys are (source, destination) names.
    Simplification: keys are strings, as in every call in /repo (the
    annotation of [register] asks for strings). *)
Definition registry := dict (string * string) func.

(** The [src_types] argument: one name, or a list/tuple of names.
    gsp/io/convert.py:30, 36, 46 and 54. *)
Inductive srcs := One (s : string) | Many (l : list string).

(** [unregister], gsp/io/convert.py:30-43. *)
Definition unregister1 (d : registry) (src dst : string) : registry :=
  if dmem d (src, dst) then ddel d (src, dst) else d.
(** gsp/io/convert.py:30-43, one name or several. *)
Definition unregister (d : registry) (ss : srcs) (dst : string) : registry :=
  match ss with
  | Many l => fold_left (fun d s => unregister1 d s dst) l d
  | One s => unregister1 d s dst
  end.

(** [register(...)(func)], gsp/io/convert.py:53-69.  The loop over a tuple
    raises in the middle, keeping what it already registered.  Returns the new
    registry together with the outcome. *)
Fixpoint register_many (d : registry) (l : list string) (dst : string) (f : func)
  : registry * res func :=
  match l with
  | [] => (d, Ok f)
  | s :: r =>
      if negb (dmem d (s, dst)) then register_many (dset d (s, dst) f) r dst f
      else (d, Err TypeError)
  end.
(** gsp/io/convert.py:46-70, one name or several. *)
Definition register (d : registry) (ss : srcs) (dst : string) (f : func)
  : registry * res func :=
  match ss with
  | Many l => register_many d l dst f
  | One s =>
      if negb (dmem d (s, dst)) then (dset d (s, dst) f, Ok f) else (d, Err TypeError)
  end.

(** [is_registered], gsp/io/convert.py:73-80 ([a or b]; functions are truthy). *)
Definition is_registered (d : registry) (src dst : string) : option func :=
  match dget d (src, dst) with
  | Some f => Some f
  | None => dget d ("*", dst)
  end.

(** A Python value as [get_converter] sees it:
    - [v_typename]: [Some n] if it is itself a type named [n];
    - [v_str]: [Some s] if it is a string;
    - [v_class]: [type(value).__name__];
    - [v_bases]: names of [value.__class__.__bases__]. gsp/io/convert.py:100-108 and 122-123. *)
Record pval := mkV {
  v_typename : option string; v_str : option string; v_class : string; v_bases : list string }.

(** The [dst_type] argument: a type, a string, or anything else. gsp/io/convert.py:110-114. *)
Inductive dstarg := DType (n : string) | DStr (n : string) | DOther.

(** Source type selection, gsp/io/convert.py:101-108.  The inner
    [is_registered(value, dst_type)] runs before [dst_type] is turned into a
    name, so it cannot succeed when [dst_type] is a type. *)
Definition src_of (d : registry) (v : pval) (dst : dstarg) : string :=
  match v_typename v with
  | Some n => n
  | None =>
      match v_str v, dst with
      | Some s, DStr n => match is_registered d s n with Some _ => s | None => v_class v end
      | _, _ => v_class v
      end
  end.

(** The loop over the bases, gsp/io/convert.py:122-126. *)
Fixpoint from_bases (d : registry) (bases : list string) (dst : string) : option func :=
  match bases with
  | [] => None
  | b :: r => match is_registered d b dst with Some f => Some f | None => from_bases d r dst end
  end.

(** [get_converter], gsp/io/convert.py:83-128. *)
Definition get_converter (d : registry) (v : pval) (dst : dstarg) : res (option func) :=
  let src := src_of d v dst in
  match dst with
  | DOther => Err ValueError
  | DType n | DStr n =>
      match is_registered d src n with
      | Some f => Ok (Some f)
      | None => Ok (from_bases d (v_bases v) n)
      end
  end.

(** [convert], gsp/io/convert.py:131-142: any exception, including calling
    None, becomes ValueError.  [apply f v] is the outcome of calling the
    registered function. *)
Definition convert {B} (apply : func -> pval -> res B)
  (d : registry) (v : pval) (dst : dstarg) : res B :=
  match get_converter d v dst with
  | Ok (Some f) => match apply f v with Ok b => Ok b | Err _ => Err ValueError end
  | Ok None => Err ValueError (* TypeError: 'NoneType' object is not callable *)
  | Err _ => Err ValueError
  end.

(** Histories of registrations. Calls of gsp/io/convert.py:30-43 and 46-70. *)
Inductive cop := Reg (ss : srcs) (dst : string) (f : func) | Unreg (ss : srcs) (dst : string).
(** One call, gsp/io/convert.py:30-43 or 46-70. *)
Definition cstep (d : registry) (o : cop) : registry :=
  match o with
  | Reg ss dst f => fst (register d ss dst f)
  | Unreg ss dst => unregister d ss dst
  end.
(** Calls in order, from the dictionary of gsp/io/convert.py:6. *)
Definition crun (d : registry) (ops : list cop) : registry := fold_left cstep ops d.
