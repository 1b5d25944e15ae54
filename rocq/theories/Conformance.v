(** The repository's own tests, carried out on the model.  Each example cites the
    test it reproduces; they check the model, and are not proofs of properties.

    The tests import [gsp.glm], which no longer exists: they are read as tests of
    gsp_matplotlib.glm.  np.ones, np.zeros and np.arange are written out; an array
    of floats that are whole numbers is a list of integers. *)
From Verif Require Import Base Slice.
From Verif Require Ragged Tracked Swizzle Create Transform Convert Registry Command Queue Execute Json.
Local Open Scope string_scope.
Local Open Scope Z_scope.

(** * tests/test_glm_vlist.py *)
Section Vlist.
  Import Ragged.
  Definition made (r : res (ragged Z)) : option (Z * list Z * nat) :=
    match r with Ok x => Some (rlen x, itemsizes x, length (rdata x)) | Err _ => None end.
  Definition set_get (r : res (ragged Z)) (k : key) (v : aval Z) (k' : key) : res (list Z) :=
    let* x := r in let* y := set x k v in get y k'.
  (** Lines 8-14, 16-21, 23-28 and 36-40. *)
  Example vlist_creation_1 : made (init (Nested [[1]; [1; 1]; [1; 1; 1]]) INone) = Some (3, [1; 2; 3], 6%nat).
  Proof. reflexivity. Qed.
  Example vlist_creation_2 : made (init (Flat [1; 1; 1; 1; 1; 1]) (ISeq false [1; 2; 3])) = Some (3, [1; 2; 3], 6%nat).
  Proof. reflexivity. Qed.
  Example vlist_creation_3 : made (init (Flat [1; 1; 1; 1; 1; 1]) (IInt 2)) = Some (3, [2; 2; 2], 6%nat).
  Proof. reflexivity. Qed.
  Example vlist_creation_5 : made (init (Nested [[0]; [1; 2]; [3; 4; 5]; [6; 7; 8; 9]]) INone) = Some (4, [1; 2; 3; 4], 10%nat).
  Proof. reflexivity. Qed.
  (** Lines 30-34 (a row stands for a pair): five items of two rows. *)
  Example vlist_creation_4 : made (init (Flat (repeat 1 10)) (IInt 2)) = Some (5, [2; 2; 2; 2; 2], 10%nat).
  Proof. reflexivity. Qed.
  (** Lines 42-46, 48-52 and 54-58. *)
  Example vlist_setitem_1 : set_get (init (Flat (repeat 0 6)) (IInt 2)) (KInt 1) (AOne 1) (KInt 1) = Ok [1; 1].
  Proof. reflexivity. Qed.
  Example vlist_setitem_2 : set_get (init (Flat (repeat 0 10)) (IInt 2)) (KSlice (Some 3) None 1) (AOne 1) (KSlice (Some 3) None 1) = Ok [1; 1; 1; 1].
  Proof. reflexivity. Qed.
  Example vlist_setitem_3 : set_get (init (Flat (repeat 0 10)) (IInt 2)) (KInt 0) (AOne 1) (KInt 0) = Ok [1; 1].
  Proof. reflexivity. Qed.
End Vlist.

(** * tests/test_glm_tracked.py *)
Section Tracking.
  Import Tracked.
  (** The mirror has the bytes of the array, all of them. *)
  Definition mirrored (t : tstate) : bool :=
    forallb (fun k => t_copy t (Z.of_nat k) =? t_mem t (Z.of_nat k)) (seq 0 (Z.to_nat (nbytes t))).
  Definition fill (x : Z) : Z -> Z := fun _ => x.
  (** A tracker made by the test starts with other contents than the array. *)
  Definition new_tracked (w : Z) (shape : list Z) : tstate :=
    mkT w shape (fun x => x) (Some (0, w * zprod shape)) true (fun _ => -1) [HBase].
  Definition all : list ix := [].
  (** Lines 50-56: [Z[...] = 0; Z[0] = 1; Z[-1] = 2; Z[3:8] = 3]. *)
  Example tracked_1d : mirrored (run (new_tracked 8 [10])
    [OSet 0 all (fill 0); OSet 0 [XInt 0] (fill 1); OSet 0 [XInt (-1)] (fill 2); OSet 0 [XSlice (Some 3) (Some 8) 1] (fill 3)]) = true.
  Proof. vm_compute. reflexivity. Qed.
  (** Lines 58-64. *)
  Example tracked_2d : mirrored (run (new_tracked 8 [3; 3])
    [OSet 0 all (fill 0); OSet 0 [XSlice None None 1; XInt 0] (fill 1); OSet 0 [XInt 0; XSlice None None 1] (fill 2);
     OSet 0 [XSlice (Some 1) (Some 2) 1; XSlice (Some 1) (Some 2) 1] (fill 3)]) = true.
  Proof. vm_compute. reflexivity. Qed.
  (** Lines 78-82: [Z = vec4(10); Z[...] = 0; Z[0].z = 1], where [Z[0].z = 1] assigns
      to [..., 2] of the view [Z[0]]. *)
  Example tracked_vec : mirrored (run (new_tracked 4 [10; 4])
    [OSet 0 all (fill 0); OGet 0 [XInt 0]; OSet 1 [XInt 2] (fill 1)]) = true.
  Proof. vm_compute. reflexivity. Qed.
  (** A new array is dirty as a whole, so the first assignment sends all of it. *)
  Example tracked_first : mirrored (run (new_tracked 8 [10]) [OSet 0 [XInt 0] (fill 1)]) = true.
  Proof. vm_compute. reflexivity. Qed.
End Tracking.

(** * tests/test_glm_swizzle.py and the swaps of tests/test_glm_vec234.py:39-50 *)
Section Swizzling.
  Import Swizzle.
  Definition key (s : string) : list ascii := list_ascii_of_string s.
  Definition blank (n c : nat) : vecs Z := mkVecs [n] c (fun _ _ => -7).
  Definition sw (v : vecs Z) : list (list ascii) := alphabets (ncomp v).
  Definition rows (v : vecs Z) : list (list Z) :=
    map (fun i => map (comp v [i]) (seq 0 (ncomp v))) (seq 0 (hd 0%nat (lead v))).
  (** A tuple of numbers, a list of numbers, a tuple of lists, a list of rows. *)
  Definition flat (l : list Z) : arr Z := mkArr [length l] (fun i => nth (hd 0%nat i) l 0).
  Definition table (l : list (list Z)) : arr Z :=
    mkArr [length l; length (hd [] l)] (fun i => nth (nth 1 i 0%nat) (nth (hd 0%nat i) l []) 0).
  Definition set (v : vecs Z) (k : string) (w : arr Z) : vecs Z := fst (setattr (sw v) v (key k) w).
  Definition read (v : vecs Z) (k : string) : vecs Z :=
    match getattr (sw v) v (key k) with Ok x => x | Err _ => v end.
  (** The array of a read swizzle, as the value of an assignment. *)
  Definition value (v : vecs Z) : arr Z := mkArr (lead v ++ [ncomp v]) (fun i => comp v (removelast i) (last i 0%nat)).
  Definition upto (n : nat) : list Z := map Z.of_nat (seq 0 n).
  (** Lines 8-13, 15-21 and 23-28. *)
  Example swizzle_ordered : rows (set (blank 10 2) "xy" (flat [1; 2])) = repeat [1; 2] 10. Proof. reflexivity. Qed.
  Example swizzle_unordered : rows (set (blank 10 2) "yx" (flat [2; 1])) = repeat [1; 2] 10. Proof. reflexivity. Qed.
  Example swizzle_rgba : rows (set (blank 10 4) "rgba" (flat [1; 2; 3; 4])) = repeat [1; 2; 3; 4] 10. Proof. reflexivity. Qed.
  (** Lines 30-35: names from two alphabets are no swizzle; the array keeps its
      contents and the test fails. *)
  Example swizzle_mix_fails : rows (set (blank 10 4) "xyba" (flat [1; 2; 3; 4])) = repeat [-7; -7; -7; -7] 10. Proof. reflexivity. Qed.
  (** Lines 37-43, 45-52, 54-60 and 62-67. *)
  Example swizzle_set_1 : rows (set (set (blank 10 2) "x" (flat (repeat 1 10))) "y" (flat (repeat 2 10))) = repeat [1; 2] 10. Proof. reflexivity. Qed.
  Example swizzle_set_2 : rows (set (set (blank 10 2) "x" (flat (upto 10))) "y" (flat (map (Z.mul 2) (upto 10)))) = map (fun x => [x; 2 * x]) (upto 10).
  Proof. reflexivity. Qed.
  Example swizzle_set_3 : rows (set (blank 10 2) "xy" (table [upto 10; map (Z.mul 2) (upto 10)])) = map (fun x => [x; 2 * x]) (upto 10).
  Proof. reflexivity. Qed.
  Example swizzle_set_4 : rows (set (blank 10 2) "xy" (table (map (fun x => [2 * x; 2 * x + 1]) (upto 10)))) = map (fun x => [2 * x; 2 * x + 1]) (upto 10).
  Proof. reflexivity. Qed.
  (** Lines 69-75 and 77-82. *)
  Example swizzle_repeated_target :
    let v := set (blank 10 2) "xy" (flat [1; 2]) in rows (set v "xy" (value (read v "yy"))) = repeat [2; 2] 10.
  Proof. reflexivity. Qed.
  Example swizzle_repeated_source : rows (set (blank 10 2) "xxy" (flat [1; 2; 0])) = repeat [2; 0] 10. Proof. reflexivity. Qed.
  (** test_glm_vec234.py:39-50. *)
  Example swizzle_swap :
    let v := set (blank 1 2) "xy" (flat [1; 2]) in
    let v1 := set v "xy" (value (read v "yx")) in
    let v2 := set v1 "yx" (value (read v1 "xy")) in
    rows v = [[1; 2]] /\ rows v1 = [[2; 1]] /\ rows v2 = [[1; 2]].
  Proof. repeat split. Qed.
End Swizzling.

(** * tests/test_glm_vec234.py:18-37 and tests/test_glm_mat234.py:18-40 *)
Section Creation.
  Import Create.
  Definition shape_type (name : string) (c : count) : option (list nat * etype) :=
    match call name c with Ok a => Some (a_shape a, a_type a) | Err _ => None end.
  Example vec_defaults : map (fun n => shape_type n CNone) ["vec2"; "vec3"; "vec4"; "mat2"; "mat3"; "mat4"] =
    map Some [([2], F32); ([3], F32); ([4], F32); ([2; 2], F32); ([3; 3], F32); ([4; 4], F32)]%nat.
  Proof. reflexivity. Qed.
  Example vec_dtype : map (fun n => option_map snd (shape_type n (CInt 1))) ["bvec2"; "bvec3"; "bvec4"; "bmat2"; "bmat3"; "bmat4"] = repeat (Some U8) 6.
  Proof. reflexivity. Qed.
  Example vec_shape : map (fun n => option_map fst (shape_type n (CInt 10))) ["vec2"; "vec3"; "vec4"; "mat2"; "mat3"; "mat4"] =
    map Some [[10; 2]; [10; 3]; [10; 4]; [10; 2; 2]; [10; 3; 3]; [10; 4; 4]]%nat.
  Proof. reflexivity. Qed.
  Example vec_shape_tuple : map (fun n => option_map fst (shape_type n (CTuple [3; 3]))) ["vec2"; "vec3"; "vec4"; "mat2"; "mat3"; "mat4"] =
    map Some [[3; 3; 2]; [3; 3; 3]; [3; 3; 4]; [3; 3; 2; 2]; [3; 3; 3; 3]; [3; 3; 4; 4]]%nat.
  Proof. reflexivity. Qed.
End Creation.

(** * tests/test_transform.py

    A transform is created as [transform.Transform()]: here one that maps values. *)
Section Transforms.
  Import Transform.
  Definition h0 : heap Z := fst (new (fst (new [] (KMap 1))) (KMap 2)).
  (** [t.left.base], [t.right.base], and [t.next.base]. *)
  Definition base_of (h : heap Z) (o : operand Z) : option nat :=
    match o with OT j => match base 9 h j with Ok b => Some b | Err _ => None end | _ => None end.
  Definition bases (r : res (heap Z * nat)) : option (option nat * option nat * option nat * option nat) :=
    match r with
    | Ok (h, i) => match nth_error h i with
                   | Some n => Some (base_of h (OT i), base_of h (n_left (V := Z) n), base_of h (n_right n), base_of h (n_next n))
                   | None => None
                   end
    | Err _ => None
    end.
  (** Lines 7-13, 15-21, 23-29 and 31-37: the operands are copies whose base is
      the original (0 and 1 here; the new transform is 2). *)
  Example transform_operators :
    map (fun o => bases (op_tt 9 h0 o 0 1)) [Plus; Minus; Times; Divide] =
    repeat (Some (Some 2, Some 0, Some 1, None)%nat) 4.
  Proof. reflexivity. Qed.
  (** Lines 39-44: [t3.base.id == t1.id] and [t3.next.base.id == t2.base.id]. *)
  Example transform_call : bases (call 9 h0 0 1) = Some (Some 0, None, None, Some 1)%nat.
  Proof. reflexivity. Qed.
End Transforms.

(** * tests/test_io.py

    [queue.run(globals(), locals())] is an outdated call: [run] takes the module
    that holds the classes.  The class [Foo] is that module's only class here. *)
Section Recording.
  Import Registry Convert Command Queue Execute Json.
  Definition E : cenv := mkE (fun c => [c; "object"]) (fun _ => "object") (fun _ => ["object"]).
  Definition foo_sig : sig := mkS [mkP "value" None (Some ["int"])] [].
  Definition foo (d : registry) (cls : string) (id : Z) (v : value) : Queue.call :=
    mkK E d (fun _ => 0) id cls "__init__" foo_sig [v] [] false (Ok VNone).
  Definition cmds (s : sys) : list (string * string * dict string value) :=
    match active s with
    | Some q => match nth_error (qs s) q with
                | Some x => map (fun c => (c_class c, c_method c, c_params c)) (q_cmds x)
                | None => []
                end
    | None => []
    end.
  Definition active_queue (ro : bool) : sys := let '(s, q) := get_queue sinit (Some "active") in set_ro (Queue.empty s q) q ro.
  Definition three : list Queue.call := [foo [] "Foo" 1 (VInt 1); foo [] "Foo" 2 (VInt 2); foo [] "Foo" 3 (VInt 3)].
  (** Lines 19-28 and 30-39: three objects, three commands or none. *)
  Example io_recording : length (cmds (run_calls (active_queue false) three)) = 3%nat /\ length (objects (create_n 3 rinit)) = 3%nat.
  Proof. split; reflexivity. Qed.
  Example io_no_recording : cmds (run_calls (active_queue true) three) = []. Proof. reflexivity. Qed.

  (** Executing what is in the active queue, in a module that offers [cl]. *)
  Definition B (cl : string) : backend := mkB (String.eqb cl) (fun _ _ => Ok (0, 0)%nat) (fun _ _ => false) (fun _ _ _ _ => Err AttributeError).
  Fixpoint execute_all (cl : string) (ap : func -> value -> res value) (rs : rstate) (l : list (string * string * dict string value))
    : res (rstate * list outcome) :=
    match l with
    | [] => Ok (rs, [])
    | (c, m, p) :: r =>
        let* x := execute (B cl) (fun _ => cl) ap rs (mkC 0 c m p) in
        let* y := execute_all cl ap (fst x) r in Ok (fst y, snd x :: snd y)
    end.
  (** What [Object.objects[id]] was built with, after running the queue from an
      empty registry. *)
  Definition rebuilt (cl : string) (ap : func -> value -> res value) (s : sys) (id : Z) : option (dict string value) :=
    match execute_all cl ap (fst (create rinit)) (cmds s) with
    | Ok (rs, os) =>
        match lookup rs id with
        | Some r => match find (fun o => match o with Built r' _ _ => Nat.eqb r r' | _ => false end) os with
                    | Some (Built _ _ kw) => Some kw
                    | _ => None
                    end
        | None => None
        end
    | Err _ => None
    end.
  (** Lines 42-52. *)
  Example io_queue_execution :
    rebuilt "Foo" (fun _ v => Ok v) (run_calls (active_queue false) [foo [] "Foo" 1 (VInt 123)]) 1 = Some [("value", VInt 123)].
  Proof. reflexivity. Qed.
  (** Lines 54-58. *)
  Example io_type_checking : snd (complete (active_queue false) (foo [] "Foo" 1 (VFloat 123))) = Err ValueError.
  Proof. reflexivity. Qed.
  (** Lines 60-75, 77-83 and 85-91. *)
  Definition float_to_int : registry := fst (register [] (One "float") "int" 0%nat).
  Definition applied (g : Z -> Z) (f : func) (v : value) : res value := match v with VFloat z => Ok (VInt (g z)) | _ => Err TypeError end.
  Example conversion :
    rebuilt "Foo" (applied (fun z => z + 1)) (run_calls (active_queue false) [foo float_to_int "Foo" 1 (VFloat 123)]) 1 = Some [("value", VInt 124)].
  Proof. reflexivity. Qed.
  Example conversion_registered : snd (register float_to_int (One "float") "int" 1%nat) = Err TypeError. Proof. reflexivity. Qed.
  Example conversion_unregister : register (unregister float_to_int (One "float") "int") (One "float") "int" 1%nat = ([("float", "int", 1%nat)], Ok 1%nat).
  Proof. reflexivity. Qed.
  (** Lines 93-115: the queue named "test" is made active by its creation. *)
  Example io_to_json :
    let s := run_calls (let '(s, q) := get_queue sinit (Some "test") in set_ro (Queue.empty s q) q false) [foo float_to_int "Foo" 1 (VFloat 123)] in
    snd (save_queue (fun _ _ => None) (fun f v => ([], applied (fun z => 4 * z) f v)) (fun _ => 0) 9 s (Some 0%nat)) =
    Ok [mkEntry "Foo/__init__" 1 [("id", JInt 1); ("value", JInt (123 * 4))]].
  Proof. reflexivity. Qed.
  (** Lines 117-135: the original keeps the float, the rebuilt object has an int. *)
  Example io_inheritance :
    rebuilt "Bar" (applied (fun z => z)) (run_calls (active_queue false) [foo float_to_int "Bar" 1 (VFloat 123)]) 1 = Some [("value", VInt 123)].
  Proof. reflexivity. Qed.
End Recording.
