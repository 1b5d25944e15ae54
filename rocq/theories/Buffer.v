(** Buffers, lists and the trackers that make them: gsp/core/buffer.py:20-59,
    gsp_matplotlib/core/buffer.py:14-46, gsp/core/list.py:22-46,
    gsp_matplotlib/core/list.py:14-23, gsp_matplotlib/__init__.py:53-81.

    Bytes are numbers below 256.  Simplifications: of a numpy dtype only the size
    of an item in bytes is kept; memoryviews are those of whole contiguous arrays
    ([ndarray.data], gsp_matplotlib/__init__.py:74). *)
From Verif Require Import Base Base64.
Local Open Scope nat_scope.
Local Open Scope list_scope.

(** The bytes of each numpy array.
    What ndarray.data and ndarray.tobytes() show, gsp_matplotlib/__init__.py:74-75. *)
Definition memory := nat -> list N.

(** What a buffer is made from: nothing, bytes, a text (base64), or the memory of an
    array. gsp_matplotlib/core/buffer.py:17 and 22-26. *)
Inductive source := SNone | SBytes (l : list N) | SText (t : string) | SArray (a : nat).
(** The array a buffer shows: bytes of its own, or the memory of an array.
    gsp_matplotlib/core/buffer.py:37-43. *)
Inductive shown := ShOwn (l : list N) | ShArray (a : nat).
(** The attributes _count, _dtype (its item size), _data and _array, gsp_matplotlib/core/buffer.py:19-27. *)
Record buffer := mkBuffer { b_count : nat; b_width : nat; b_data : source; b_array : option shown }.

(** Buffer.__init__, gsp_matplotlib/core/buffer.py:14-27.  A malformed text is a
    binascii.Error, which is a ValueError. *)
Definition make (count width : nat) (data : source) : res buffer :=
  match data with
  | SText t => let* l := b64decode t in Ok (mkBuffer count width (SBytes l) None)
  | _ => Ok (mkBuffer count width data None)
  end.
(** Buffer.set_data, gsp_matplotlib/core/buffer.py:29-35 (also gsp/core/buffer.py:41-54). *)
Definition set_data {D : Type} (b : buffer) (offset : nat) (data : D) : buffer := b.
(** Buffer.__len__, gsp/core/buffer.py:56-59. *)
Definition len (b : buffer) : nat := b_count b.

(** np.frombuffer: the size must be a multiple of that of an item, which cannot be 0.
    Called at gsp_matplotlib/core/buffer.py:40. *)
Definition frombuffer (width size : nat) (s : shown) : res shown :=
  match width with
  | O => Err ValueError
  | _ => if size mod width =? 0 then Ok s else Err ValueError
  end.
(** Buffer.__array__, gsp_matplotlib/core/buffer.py:37-43.  [fresh] is what memory
    just allocated happens to hold (np.empty).  Text data was decoded on creation. *)
Definition array (mem : memory) (fresh : nat -> list N) (b : buffer) : res (buffer * shown) :=
  match b_array b with
  | Some s => Ok (b, s)
  | None =>
      let* s := match b_data b with
                | SNone => Ok (ShOwn (fresh (b_count b * b_width b)))
                | SBytes l => frombuffer (b_width b) (length l) (ShOwn l)
                | SArray a => frombuffer (b_width b) (length (mem a)) (ShArray a)
                | SText _ => Err TypeError
                end in
      Ok (mkBuffer (b_count b) (b_width b) (b_data b) (Some s), s)
  end.
(** The bytes read through the array a buffer shows, gsp_matplotlib/core/buffer.py:37-43. *)
Definition bytes_of (mem : memory) (s : shown) : list N :=
  match s with ShOwn l => l | ShArray a => mem a end.

(** The converters ndarray and tracked to Buffer with the Tracker class,
    gsp_matplotlib/__init__.py:53-80: the count is the length of the first axis, the
    width that of one number. *)
Definition tracker_buffer (a n width : nat) : buffer := mkBuffer n width (SArray a) None.

(** Lists, gsp/core/list.py:22-46: sizes are one number or a buffer. *)
Inductive sizes := OneSize (n : Z) | SizesIn (b : buffer).
(** The attributes of a List, gsp/core/list.py:35-37. *)
Record blist := mkList { l_data : buffer; l_sizes : sizes }.
(** List.__len__, gsp/core/list.py:40-46: [data] is not defined. *)
Definition list_len (l : blist) : res nat :=
  match l_sizes l with OneSize _ => Err NameError | SizesIn b => Ok (len b) end.
(** List.__array__ and List.__repr__, gsp_matplotlib/core/list.py:19-23. *)
Definition list_array (mem : memory) (fresh : nat -> list N) (l : blist) : res (blist * shown) :=
  let* bs := array mem fresh (l_data l) in
  Ok (mkList (fst bs) (l_sizes l), snd bs).
(** List.__repr__, gsp_matplotlib/core/list.py:22-23. *)
Definition list_repr (l : blist) : res (nat * nat) :=
  let* n := list_len l in Ok (n, b_width (l_data l)).

(** Sessions.  Arrays are made tracked and assigned to.  The commands recorded are
    creations, whose data is the memory of the array, and updates.
    gsp_matplotlib/__init__.py:74-75 and 77-78. *)
Inductive command := CCreate (a n width : nat) | CSet (b : nat) (offset : nat) (data : list N).
(** The arrays, the buffers of their trackers and the commands recorded so far, gsp_matplotlib/__init__.py:70-78. *)
Record session := mkSession { s_mem : memory; s_buffers : list (nat * buffer); s_log : list command }.
(** An array's memory changed in place; no other array's changes.  numpy, not code of its own. *)
Definition write (mem : memory) (a : nat) (l : list N) : memory := fun x => if x =? a then l else mem x.
(** The part of a list between two places.
    The bytes a tracker reports, gsp_matplotlib/glm/ndarray/tracked.py:149-155. *)
Definition part (start stop : nat) (l : list N) : list N := firstn (stop - start) (skipn start l).
(** Tracker.__init__, gsp_matplotlib/__init__.py:70-75.  Buffers are numbered in order of creation. *)
Definition track (s : session) (a n width : nat) : session :=
  mkSession (s_mem s) (s_buffers s ++ [(a, tracker_buffer a n width)])
            (s_log s ++ [CCreate a n width; CSet (length (s_buffers s)) 0 (s_mem s a)]).
(** An assignment to an array, tracked.py:123-156 with Tracker.set_data,
    gsp_matplotlib/__init__.py:77-78: [new] are the bytes of the array afterwards,
    [reports] the buffers whose trackers are told, with the bytes they are told (none
    for an array that is not tracked). *)
Definition assign (s : session) (a : nat) (new : list N) (reports : list (nat * (nat * nat))) : session :=
  mkSession (write (s_mem s) a new) (s_buffers s)
            (s_log s ++ map (fun r => CSet (fst r) (fst (snd r)) (part (fst (snd r)) (snd (snd r)) new)) reports).
(** What a program does with arrays: make one tracked (gsp_matplotlib/__init__.py:70-75), assign to one. *)
Inductive event := ETrack (a n width : nat) | EAssign (a : nat) (new : list N) (reports : list (nat * (nat * nat))).
(** One event, gsp_matplotlib/__init__.py:70-78. *)
Definition happens (s : session) (e : event) : session :=
  match e with ETrack a n w => track s a n w | EAssign a new rs => assign s a new rs end.
(** Events in order. *)
Definition history (s : session) (l : list event) : session := fold_left happens l s.
(** A session before anything is recorded. *)
Definition opened (mem : memory) : session := mkSession mem [] [].

(** Commands as text: the data of memoryviews is read when the text is written,
    gsp/io/json.py:15-18. *)
Inductive stored := TCreate (n width : nat) (data : string) | TSet (b offset : nat) (data : string).
(** One command as text, gsp/io/json.py:15-18. *)
Definition written (mem : memory) (c : command) : stored :=
  match c with
  | CCreate a n w => TCreate n w (b64encode (mem a))
  | CSet b o l => TSet b o (b64encode l)
  end.
(** The commands of the queue as text, gsp/io/json.py:60-73. *)
Definition saved (s : session) : list stored := map (written (s_mem s)) (s_log s).
(** Running the commands. The object a replayed method is called on, gsp/io/command.py:452-455. *)
Fixpoint at_place {A} (l : list A) (i : nat) (f : A -> A) : list A :=
  match l, i with
  | [], _ => []
  | x :: r, O => f x :: r
  | x :: r, S j => x :: at_place r j f
  end.
(** One command replayed: Buffer.__init__ and set_data, gsp_matplotlib/core/buffer.py:14-35. *)
Definition play (bs : list buffer) (c : stored) : res (list buffer) :=
  match c with
  | TCreate n w t => let* b := make n w (SText t) in Ok (bs ++ [b])
  | TSet i o t => Ok (at_place bs i (fun b => set_data b o t))
  end.
(** The commands replayed in order, gsp/io/command.py:132-154 and 409-455. *)
Fixpoint replay (bs : list buffer) (l : list stored) : res (list buffer) :=
  match l with
  | [] => Ok bs
  | c :: r => let* bs' := play bs c in replay bs' r
  end.
(** Commands sent as they are recorded: each is written when it happens.
    gsp/io/json.py:30-58 for each command. *)
Fixpoint sent (s : session) (l : list event) : list stored :=
  match l with
  | [] => []
  | e :: r => map (written (s_mem (happens s e))) (skipn (length (s_log s)) (s_log (happens s e))) ++ sent (happens s e) r
  end.
