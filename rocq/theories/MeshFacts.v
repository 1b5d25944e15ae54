(** Proofs about Mesh.v. *)
From Verif Require Import Base Mesh MeshSpec.
Open Scope string_scope.

Section Facts.
  Context {F : Type} (num : string -> res F) (int : string -> res Z).

  Lemma each_says {A} (f : string -> res A) ws x : Forall2 (fun w y => f w = Ok y) ws x -> each f ws = Ok x.
  Proof. induction 1 as [|w y ws x H HF IH]; cbn [each]; [reflexivity|]. rewrite H, IH. reflexivity. Qed.
  Lemma corners0 ws l : Forall2 (corner_says int) ws l -> each (corner int 0) ws = Ok (map (fun c => fst (fst c)) l).
  Proof.
    intros H. apply each_says. induction H as [|w [[v t] n] ws l ((p & Hp & Hv) & _) HF IH]; cbn [map fst]; constructor; auto.
    unfold corner. now rewrite Hp.
  Qed.
  Lemma optional_corner w k x : optional int (nth_error (parts w) k) x ->
    match x with Some z => corner int k w = Ok z | None => exists e, corner int k w = Err e end.
  Proof.
    unfold optional, corner. destruct x as [z|].
    - intros (p & -> & H). exact H.
    - intros H. destruct (nth_error (parts w) k) as [p|]; [|eauto]. specialize (H p eq_refl).
      destruct (int p); [discriminate|eauto].
  Qed.
  Lemma each_complete k ws (x : list (option Z)) :
    Forall2 (fun w o => optional int (nth_error (parts w) k) o) ws x ->
    match complete x with Some zs => each (corner int k) ws = Ok zs | None => exists e, each (corner int k) ws = Err e end.
  Proof.
    induction 1 as [|w o ws x H HF IH]; cbn [each complete]; [reflexivity|].
    apply optional_corner in H. destruct o as [z|].
    - rewrite H. cbn [bind]. destruct (complete x) as [zs|].
      + rewrite IH. reflexivity.
      + destruct IH as (e & ->). exists e. reflexivity.
    - destruct H as (e & ->). exists e. reflexivity.
  Qed.
  Lemma corners_opt ws l : Forall2 (corner_says int) ws l ->
    Forall2 (fun w o => optional int (nth_error (parts w) 1) o) ws (map (fun c => snd (fst c)) l) /\
    Forall2 (fun w o => optional int (nth_error (parts w) 2) o) ws (map snd l).
  Proof.
    induction 1 as [|w [[v t] n] ws l (_ & H1 & H2) HF [IH1 IH2]]; cbn [map fst snd]; split; constructor; auto.
  Qed.
  Lemma try_append_spec k l0 ws x :
    Forall2 (fun w o => optional int (nth_error (parts w) k) o) ws x ->
    try_append l0 (each (corner int k) ws) = (l0 ++ some_of (complete x))%list.
  Proof.
    intros H. apply each_complete in H. destruct (complete x) as [zs|].
    - rewrite H. reflexivity.
    - destruct H as (e & ->). cbn. now rewrite app_nil_r.
  Qed.

  Definition add (m : lists) (l : list (item F)) : lists :=
    mkL (l_v m ++ vertices_of l) (l_t m ++ textures_of l) (l_n m ++ normals_of l)
        (l_vi m ++ map (map (fun c => fst (fst c))) (faces_of l))
        (l_ti m ++ flat_map (fun f => some_of (complete (map (fun c => snd (fst c)) f))) (faces_of l))
        (l_ni m ++ flat_map (fun f => some_of (complete (map snd f))) (faces_of l)).

  Lemma read_line_says m line i : says num int line i -> read_line num int m line = Ok (add m [i]).
  Proof.
    destruct m as [v t n vi ti ni].
    destruct i as [x|x|x|l|]; cbn [says]; unfold read_line, add;
      cbn [vertices_of textures_of normals_of faces_of flat_map app map l_v l_t l_n l_vi l_ti l_ni]; rewrite ?app_nil_r.
    1-3: intros (ws & (Hp & Hw) & Hx); rewrite Hp, Hw; cbn [String.eqb Ascii.eqb Bool.eqb];
      rewrite (each_says num _ _ Hx); reflexivity.
    - intros (ws & (Hp & Hw) & Hx). rewrite Hp, Hw. cbn [String.eqb Ascii.eqb Bool.eqb]. rewrite (corners0 _ _ Hx). cbn [bind].
      destruct (corners_opt _ _ Hx) as [H1 H2].
      rewrite (try_append_spec 1 ti ws _ H1), (try_append_spec 2 ni ws _ H2). reflexivity.
    - intros [H|[H|(w & ws & H & Hn)]].
      + now rewrite H.
      + rewrite H. now destruct (prefix "#" line).
      + rewrite H. destruct (prefix "#" line); [reflexivity|].
        destruct (String.eqb_spec w "v"); [exfalso; apply Hn; subst; cbn; auto|].
        destruct (String.eqb_spec w "vt"); [exfalso; apply Hn; subst; cbn; auto|].
        destruct (String.eqb_spec w "vn"); [exfalso; apply Hn; subst; cbn; auto|].
        destruct (String.eqb_spec w "f"); [exfalso; apply Hn; subst; cbn; auto 6|]. reflexivity.
  Qed.
  Lemma add_cons m i l : add (add m [i]) l = add m (i :: l).
  Proof.
    unfold add, vertices_of, textures_of, normals_of, faces_of. cbn [l_v l_t l_n l_vi l_ti l_ni].
    change (i :: l) with ([i] ++ l)%list. rewrite ?flat_map_app, ?map_app, ?flat_map_app, <- ?app_assoc. reflexivity.
  Qed.
  Lemma read_lines_says file items : Forall2 (says num int) file items -> forall m,
    read_lines num int m file = Ok (add m items).
  Proof.
    induction 1 as [|line i file items H HF IH]; intros m; cbn [read_lines].
    - unfold add. cbn. rewrite !app_nil_r. now destruct m.
    - rewrite (read_line_says _ _ _ H). cbn [bind]. rewrite IH, add_cons. reflexivity.
  Qed.

  Lemma mesh_never file : exists e, mesh num int file = Err e.
  Proof.
    unfold mesh, mesh_with. destruct (read_lines _ _ _ file) as [m|e]; cbn [bind]; [|eauto].
    destruct (array (l_v m)) as [v|e]; cbn [bind]; [|eauto]. unfold fit. destruct (extent v); cbn [bind]; eauto.
  Qed.
  Lemma mesh_name_error file items v : Forall2 (says num int) file items -> In v (vertices_of items) ->
    (forall w, In w (vertices_of items) -> length w = length v) -> mesh num int file = Err NameError.
  Proof.
    intros H Hin Hl. unfold mesh, mesh_with. rewrite (read_lines_says _ _ H). cbn [bind add l_v app].
    destruct (vertices_of items) as [|r rs] eqn:E; [destruct Hin|]. unfold array.
    assert (Hall : forallb (fun x => Nat.eqb (length x) (length r)) rs = true).
    { apply forallb_forall. intros x Hx. apply Nat.eqb_eq. rewrite (Hl x) by (now right). symmetry. apply Hl. now left. }
    rewrite Hall. reflexivity.
  Qed.
  Lemma mesh_value_error file items : Forall2 (says num int) file items ->
    vertices_of items = [] \/ (exists v w, In v (vertices_of items) /\ In w (vertices_of items) /\ length v <> length w) ->
    mesh num int file = Err ValueError.
  Proof.
    intros H Hc. unfold mesh, mesh_with. rewrite (read_lines_says _ _ H). cbn [bind add l_v app].
    destruct Hc as [->|(v & w & Hv & Hw & N)]; [reflexivity|].
    destruct (vertices_of items) as [|r rs]; [destruct Hv|]. unfold array.
    destruct (forallb _ rs) eqn:E; [exfalso|reflexivity]. rewrite forallb_forall in E.
    assert (A : forall x, In x (r :: rs) -> length x = length r).
    { intros x [->|Hx]; [reflexivity|]. apply Nat.eqb_eq. now apply E. }
    apply N. rewrite (A v Hv), (A w Hw). reflexivity.
  Qed.
  Lemma array_same {A} (rows : list (list A)) : (forall v w, In v rows -> In w rows -> length v = length w) -> array rows = Ok rows.
  Proof.
    intros H. destruct rows as [|r rs]; [reflexivity|]. unfold array.
    assert (Hall : forallb (fun x => Nat.eqb (length x) (length r)) rs = true).
    { apply forallb_forall. intros x Hx. apply Nat.eqb_eq. apply H; [now right|now left]. }
    rewrite Hall. reflexivity.
  Qed.
  Lemma mesh_with_fit (ft : list (list F) -> res (list (list F))) file items v : Forall2 (says num int) file items ->
    (forall a b, In a (vertices_of items) -> In b (vertices_of items) -> length a = length b) ->
    (forall a b, In a (faces_of items) -> In b (faces_of items) -> length a = length b) ->
    ft (vertices_of items) = Ok v ->
    mesh_with num int ft file = Ok (v, map (map (fun c => fst (fst c) - 1)%Z) (faces_of items)).
  Proof.
    intros H Hv Hf Hft. unfold mesh_with. rewrite (read_lines_says _ _ H). cbn [bind add l_v l_vi app].
    rewrite (array_same _ Hv). cbn [bind]. rewrite Hft. cbn [bind]. rewrite array_same.
    - cbn [bind]. f_equal. f_equal. rewrite map_map. apply map_ext. intros f. rewrite map_map. reflexivity.
    - intros a b Ha Hb. apply in_map_iff in Ha, Hb. destruct Ha as (x & <- & Hx), Hb as (y & <- & Hy).
      rewrite !map_length. now apply Hf.
  Qed.
  Lemma mesh_with_ragged (ft : list (list F) -> res (list (list F))) file items v f g : Forall2 (says num int) file items ->
    (forall a b, In a (vertices_of items) -> In b (vertices_of items) -> length a = length b) ->
    In f (faces_of items) -> In g (faces_of items) -> length f <> length g ->
    ft (vertices_of items) = Ok v -> mesh_with num int ft file = Err ValueError.
  Proof.
    intros H Hv Hf Hg N Hft. unfold mesh_with. rewrite (read_lines_says _ _ H). cbn [bind add l_v l_vi app].
    rewrite (array_same _ Hv). cbn [bind]. rewrite Hft. cbn [bind].
    destruct (faces_of items) as [|r rs]; [destruct Hf|]. cbn [map]. unfold array.
    destruct (forallb _ _) eqn:E; [exfalso|reflexivity]. rewrite forallb_forall in E.
    assert (A : forall x, In x (r :: rs) -> length x = length r).
    { intros x [->|Hx]; [reflexivity|]. apply (in_map (map (fun c : Z * option Z * option Z => fst (fst c)))) in Hx.
      apply E, Nat.eqb_eq in Hx. rewrite !map_length in Hx. exact Hx. }
    apply N. rewrite (A f Hf), (A g Hg). reflexivity.
  Qed.
End Facts.

(** ** Words and parts *)
Lemma append_assoc a b c : (a ++ (b ++ c))%string = ((a ++ b) ++ c)%string.
Proof. induction a as [|x a IH]; cbn; [reflexivity|]. now rewrite IH. Qed.
Lemma append_empty a : (a ++ "")%string = a.
Proof. induction a as [|x a IH]; cbn; [reflexivity|]. now rewrite IH. Qed.
Lemma blank_spec c : blank c = true <-> is_blank c.
Proof. unfold is_blank. destruct c as [[] [] [] [] [] [] [] []]; cbn; split; intros H; try discriminate; try tauto; repeat (destruct H as [H|H]; try discriminate); destruct H. Qed.
Lemma blank_not c : ~ is_blank c -> blank c = false.
Proof. intros H. destruct (blank c) eqn:E; [apply blank_spec in E; tauto|reflexivity]. Qed.
Lemma words_word u : no_blank u -> forall w s, words_from w (u ++ s) = words_from (w ++ u) s.
Proof.
  induction u as [|c u IH]; intros H w s; cbn [append].
  - now rewrite append_empty.
  - cbn [words_from]. rewrite (blank_not c) by (apply H; cbn; now left). rewrite IH.
    + f_equal. rewrite <- append_assoc. reflexivity.
    + intros x Hx. apply H. cbn. now right.
Qed.
Lemma words_blanks b : all_blank b -> forall s, words_from "" (b ++ s) = words_from "" s.
Proof.
  induction b as [|c b IH]; intros H s; cbn [append]; [reflexivity|]. cbn [words_from].
  rewrite (proj2 (blank_spec c)) by (apply H; cbn; now left). cbn [String.eqb]. apply IH. intros x Hx. apply H. cbn. now right.
Qed.
Lemma words_spelled line ws : spelled line ws -> words line = ws.
Proof.
  unfold words. induction 1 as [b Hb|b w rest ws Hb Hw Hn Hr HS IH].
  - rewrite <- (append_empty b), words_blanks by exact Hb. reflexivity.
  - rewrite words_blanks by exact Hb. rewrite words_word by exact Hn. cbn [append].
    destruct rest as [|c rest]; cbn [words_from].
    + apply String.eqb_neq in Hw. rewrite Hw. rewrite <- IH. reflexivity.
    + rewrite (proj2 (blank_spec c) (Hr c rest eq_refl)). apply String.eqb_neq in Hw. rewrite Hw. f_equal.
      rewrite <- IH. cbn [words_from]. rewrite (proj2 (blank_spec c) (Hr c rest eq_refl)). reflexivity.
Qed.
Lemma parts_word u : ~ In "/"%char (list_ascii_of_string u) -> forall w s, parts_from w (u ++ s) = parts_from (w ++ u) s.
Proof.
  induction u as [|c u IH]; intros H w s; cbn [append].
  - now rewrite append_empty.
  - cbn [parts_from]. destruct (Ascii.eqb_spec c "/") as [->|N]; [exfalso; apply H; cbn; now left|]. rewrite IH.
    + f_equal. rewrite <- append_assoc. reflexivity.
    + intros Hx. apply H. cbn. now right.
Qed.
Lemma parts_slashed p ps : (forall u, In u (p :: ps) -> ~ In "/"%char (list_ascii_of_string u)) -> parts (String.concat "/" (p :: ps)) = p :: ps.
Proof.
  unfold parts. revert p. induction ps as [|q ps IH]; intros p H.
  - cbn [String.concat]. rewrite <- (append_empty p) at 1. rewrite parts_word by (apply H; now left). reflexivity.
  - change (String.concat "/" (p :: q :: ps)) with (p ++ (String "/" (String.concat "/" (q :: ps))))%string.
    rewrite parts_word by (apply H; now left). cbn [append parts_from Ascii.eqb Bool.eqb]. f_equal.
    apply IH. intros u Hu. apply H. now right.
Qed.

