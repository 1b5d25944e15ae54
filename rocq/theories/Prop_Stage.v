(** C67: what accessors and output variables select.  C68: the colours of a colour map. *)
From Verif Require Import Base Stage StageSpec StageFacts.
Local Open Scope list_scope.
Local Open Scope nat_scope.
Local Open Scope string_scope.

(** Whole numbers, for the examples. *)
Definition n (z : Z) : Qc := Q2Qc (inject_Z z).
Definition q (l : list Z) : list Qc := map n l.

Theorem C67_letter : forall letter k s c l, stands_for letter k -> sound (VArr (s ++ [c]) l) ->
  (k < c -> exists m, component letter (VArr (s ++ [c]) l) = Ok (VArr s m) /\ sound (VArr s m) /\ component_of c k l m) /\
  (c <= k -> component letter (VArr (s ++ [c]) l) = Err IndexError).
Proof. exact letter_ok. Qed.
Print Assumptions C67_letter.
Example C67_letter_y : component "y" (VArr [2; 3] (q [1; 2; 3; 4; 5; 6]%Z)) = Ok (VArr [2] (q [2; 5]%Z)).
Proof. reflexivity. Qed.
Example C67_letter_w : component "w" (VArr [2; 3] (q [1; 2; 3; 4; 5; 6]%Z)) = Err IndexError.
Proof. reflexivity. Qed.

Theorem C67_scalar : forall letter k l, stands_for letter k -> component letter (VArr [] l) = Err IndexError.
Proof. exact letter_scalar. Qed.
Print Assumptions C67_scalar.
Example C67_scalar_x : stands_for "x" 0.
Proof. now left. Qed.

Theorem C67_same_place : forall a b k sh l, stands_for a k -> stands_for b k -> component a (VArr sh l) = component b (VArr sh l).
Proof. exact letters_agree. Qed.
Print Assumptions C67_same_place.
Example C67_same_place_blue : stands_for "z" 2 /\ stands_for "b" 2.
Proof. split; [now left|now right]. Qed.

Theorem C67_field : forall sh fs key s l, dget fs key = Some (s, l) -> component key (VRec sh fs) = Ok (VArr (sh ++ s) l).
Proof. exact field_ok. Qed.
Print Assumptions C67_field.
Theorem C67_field_sound : forall sh fs key v, sound (VRec sh fs) -> component key (VRec sh fs) = Ok v -> sound v.
Proof. exact field_sound. Qed.
Print Assumptions C67_field_sound.
Theorem C67_no_field : forall sh fs key, dget fs key = None -> component key (VRec sh fs) = Err ValueError.
Proof. exact no_field. Qed.
Print Assumptions C67_no_field.
Example C67_field_color : let v := VRec [2] [("position", ([2], (q [1; 2; 3; 4]%Z))); ("x", ([], (q [5; 6]%Z)))] in
  sound v /\ component "x" v = Ok (VArr [2] (q [5; 6]%Z)) /\ component "position" v = Ok (VArr [2; 2] (q [1; 2; 3; 4]%Z)) /\
  component "y" v = Err ValueError.
Proof. split; [repeat constructor|]. repeat split. Qed.

Theorem C67_index : forall key v n sh l idx js, component key v = Ok (VArr (n :: sh) l) -> sound (VArr (n :: sh) l) ->
  Forall2 (fun z j => wrap n z = Some j) idx js ->
  exists m, access (Some (Some idx)) key v = Ok (VArr (length idx :: sh) m) /\ rows_of (count sh) js l m.
Proof. exact access_index. Qed.
Print Assumptions C67_index.
Theorem C67_index_from_start : forall n i, i < n -> wrap n (Z.of_nat i) = Some i.
Proof. exact wrap_nat. Qed.
Print Assumptions C67_index_from_start.
Theorem C67_index_from_end : forall n i, i < n -> wrap n (- Z.of_nat (S i)) = Some (n - S i).
Proof. exact wrap_neg. Qed.
Print Assumptions C67_index_from_end.
Theorem C67_index_out : forall n sh l idx, (exists z, In z idx /\ (z < - Z.of_nat n \/ Z.of_nat n <= z)%Z) ->
  take (VArr (n :: sh) l) idx = Err IndexError.
Proof. exact take_out. Qed.
Print Assumptions C67_index_out.
Theorem C67_no_index : forall key v, access (Some None) key v = component key v.
Proof. exact access_plain. Qed.
Print Assumptions C67_no_index.
Example C67_index_two : access (Some (Some [1; -2]%Z)) "y" (VArr [2; 3] (q [1; 2; 3; 4; 5; 6]%Z)) = Ok (VArr [2] (q [5; 2]%Z)).
Proof. reflexivity. Qed.
Example C67_index_outside : access (Some (Some [2]%Z)) "y" (VArr [2; 3] (q [1; 2; 3; 4; 5; 6]%Z)) = Err IndexError.
Proof. reflexivity. Qed.

(** A key of several letters, as in "xy", does not select several components. *)
Theorem C67_several_refuted : exists v, sound v /\ component "xy" v = component "x" v /\ component "yzw" v = component "y" v /\
  component "" v = component "x" v /\ component "yx" v = Err IndexError /\ component "xy" v <> Err IndexError.
Proof. exists (VArr [1; 4] (q [1; 2; 3; 4]%Z)). repeat split; discriminate. Qed.
Print Assumptions C67_several_refuted.
(** With an index, an accessor of an accessor selects twice. *)
Theorem C67_nested_refuted : exists v idx, sound v /\
  accesses (Some (Some idx)) ["position"; "x"] v = Ok (VArr [2] (q [1; 2]%Z)) /\
  accesses (Some None) ["position"; "x"] v = Ok (VArr [2] (q [1; 2]%Z)) /\ take (VArr [2] (q [1; 2]%Z)) idx = Ok (VArr [2] (q [2; 1]%Z)).
Proof.
  exists (VRec [2] [("position", ([1], (q [1; 2]%Z)))]), [1; 0]%Z. split; [repeat constructor|]. repeat split.
Qed.
Print Assumptions C67_nested_refuted.
(** Evaluating without variables, or over something without a dtype, always fails. *)
Theorem C67_default_refuted : forall key v a, access None key v <> Ok a /\ access (Some None) key VOther = Err AttributeError.
Proof. intros key v a. split; [|reflexivity]. unfold access. destruct (component key v); cbn; discriminate. Qed.
Print Assumptions C67_default_refuted.

Theorem C67_out : forall vars name, index_char "." name = None ->
  out vars name = match dget vars name with Some (sh, l) => Ok (VArr sh l) | None => Err ValueError end.
Proof. exact out_plain. Qed.
Print Assumptions C67_out.
Theorem C67_out_letters : forall alphabet vars base key ks s c l, alphabet = "xyzw"%string \/ alphabet = "rgba"%string ->
  index_char "." base = None -> spells alphabet key ks ->
  dget vars base = Some (s ++ [c], l)%list -> length l = count (s ++ [c]) ->
  (Forall (fun k => k < c) ks -> exists m, out vars (base ++ "." ++ key) = Ok (VArr (s ++ [length ks]) m) /\
     sound (VArr (s ++ [length ks]) m) /\ components_of c ks l m) /\
  (~ Forall (fun k => k < c) ks -> out vars (base ++ "." ++ key) = Err IndexError).
Proof. exact out_letters. Qed.
Print Assumptions C67_out_letters.
Theorem C67_out_unknown : forall vars base key sh l, index_char "." base = None -> index_char "." key = None -> dget vars base = Some (sh, l) ->
  (forall alphabet ks, alphabet = "xyzw"%string \/ alphabet = "rgba"%string -> ~ spells alphabet key ks) ->
  out vars (base ++ "." ++ key) = Err UnboundLocalError.
Proof. exact out_unknown_letters. Qed.
Print Assumptions C67_out_unknown.
Theorem C67_out_missing : forall vars base rest, index_char "." base = None -> dget vars base = None ->
  out vars base = Err ValueError /\ out vars (base ++ "." ++ rest) = Err ValueError.
Proof. exact out_missing. Qed.
Print Assumptions C67_out_missing.
Theorem C67_out_middle : forall vars base mid key, index_char "." base = None -> index_char "." key = None ->
  out vars (base ++ "." ++ mid ++ "." ++ key) = out vars (base ++ "." ++ key).
Proof. exact out_middle. Qed.
Print Assumptions C67_out_middle.
Example C67_out_screen : let vars := [("screen[positions]", ([2; 3], (q [1; 2; 3; 4; 5; 6]%Z)))] in
  out vars "screen[positions]" = Ok (VArr [2; 3] (q [1; 2; 3; 4; 5; 6]%Z)) /\
  out vars "screen[positions].zx" = Ok (VArr [2; 2] (q [3; 1; 6; 4]%Z)) /\
  out vars "screen[positions].x" = Ok (VArr [2; 1] (q [1; 4]%Z)) /\
  out vars "screen[positions].w" = Err IndexError /\ out vars "screen[positions].xg" = Err UnboundLocalError /\
  out vars "depth" = Err ValueError.
Proof. repeat split. Qed.
Example C67_out_spelt : spells "xyzw" "zx" [2; 0] /\ index_char "." "screen[positions]" = None.
Proof. split; [repeat constructor|reflexivity]. Qed.
(** The two ways of asking for one component differ in shape. *)
Theorem C67_out_shape_refuted : exists vars l, out vars "v.x" = Ok (VArr [2; 1] l) /\
  (let* v := out vars "v" in component "x" v) = Ok (VArr [2] l).
Proof. exists [("v", ([2; 2], (q [1; 2; 3; 4]%Z)))], (q [1; 3]%Z). split; reflexivity. Qed.
Print Assumptions C67_out_shape_refuted.

Theorem C68_colors : forall (color : Type) (get_cmap : option string -> res (Qc -> color)) c f l lo hi, get_cmap (k_name c) = Ok f ->
  bound (k_vmin c) (least_of l) lo -> bound (k_vmax c) (greatest_of l) hi ->
  ((lo <= hi)%Qc -> exists xs, colors get_cmap c l = Ok (map f xs) /\ Forall2 (place lo hi) l xs) /\
  ((hi < lo)%Qc -> colors get_cmap c l = Err ValueError).
Proof. exact @colors_ok. Qed.
Print Assumptions C68_colors.
Theorem C68_order : forall lo hi a b x y, (lo <= hi)%Qc -> place lo hi a x -> place lo hi b y -> (a <= b)%Qc -> (x <= y)%Qc.
Proof. exact place_mono. Qed.
Print Assumptions C68_order.
Theorem C68_ends : forall lo hi x y, lo <> hi -> place lo hi lo x -> place lo hi hi y -> x = 0%Qc /\ y = 1%Qc.
Proof. exact place_ends. Qed.
Print Assumptions C68_ends.
Theorem C68_no_values : forall (color : Type) (get_cmap : option string -> res (Qc -> color)) c f, get_cmap (k_name c) = Ok f ->
  colors get_cmap c [] = match k_vmin c, k_vmax c with
                         | Some a, Some b => if (Qc_eq_bool a 0 || Qc_eq_bool b 0)%bool then Err ValueError else
                                             if qle a b then Ok [] else Err ValueError
                         | _, _ => Err ValueError
                         end.
Proof. exact @colors_none. Qed.
Print Assumptions C68_no_values.
Theorem C68_unknown : forall (color : Type) (get_cmap : option string -> res (Qc -> color)) c e l,
  get_cmap (k_name c) = Err e -> colors get_cmap c l = Err e.
Proof. exact @unknown_map. Qed.
Print Assumptions C68_unknown.
(** Changing the colour map of a Colormap has no effect. *)
Theorem C68_set_colormap_refuted : forall (color : Type) (get_cmap : option string -> res (Qc -> color)) c name l,
  colors get_cmap (set_colormap c name) l = colors get_cmap c l.
Proof. exact @rename_lost. Qed.
Print Assumptions C68_set_colormap_refuted.

(** The grey scale. *)
Definition grey (name : option string) : res (Qc -> Qc) :=
  match name with Some "gray" => Ok (fun x => x) | _ => Err ValueError end.
Example C68_colors_given : colors grey (mkCmap (Some "gray") (Some (n 2)) (Some (n 4))) (q [2; 4; 3]%Z) = Ok [n 0; n 1; Q2Qc (1 # 2)].
Proof. vm_compute. apply f_equal, same_numbers. reflexivity. Qed.
Example C68_colors_bounds : bound (Some (n 2)) (least_of (q [3]%Z)) (n 2) /\ bound None (greatest_of (q [3]%Z)) (n 3).
Proof. split; [left; split; [discriminate|reflexivity]|]. split; [now left|]. intros v [<-|[]]. apply Qcle_refl. Qed.
(** A bound of 0 is ignored: the same value gets another colour when other values
    change. *)
Theorem C68_zero_refuted : exists c, k_vmin c = Some 0%Qc /\ k_vmax c = Some (n 4) /\
  colors grey c (q [2; 3]%Z) = Ok [n 0; Q2Qc (1 # 2)] /\ colors grey c (q [0; 2; 3]%Z) = Ok [n 0; Q2Qc (1 # 2); Q2Qc (3 # 4)].
Proof. exists (mkCmap (Some "gray") (Some 0%Qc) (Some (n 4))). do 2 (split; [reflexivity|]). split; vm_compute; apply f_equal, same_numbers; reflexivity. Qed.
Print Assumptions C68_zero_refuted.
