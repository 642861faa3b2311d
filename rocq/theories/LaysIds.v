(** The drawing ids of a stand-alone slide. *)
From Coq Require Import String Ascii List Bool Arith NArith ZArith Lia FinFun.
From Verif Require Import Str StrRefl Num EscapeModel EscapeProofs XmlSpec XmlProofs XmlTpl OpcSpec GenProofs TplRead XmlPath PathRead ColorModel DocPropsProofs LookSpec TableModel TableSpec TableProofs TableLook ConnectorModel ConnectorSpec ConnectorProofs ChartModel ChartTpl ChartProofs ShapeModel SlideModel SlideSpec SlideInput SlideWant ElemRead ShapeProofs SlideProofs SlideRead SlideShow SlideIds GeomSpec GeomProofs SlideThms LaysModel LaysSpec LaysProofs LaysShow LaysRead.
Import ListNotations.
Open Scope nat_scope.
Open Scope string_scope.

Lemma nlz_get {B} (f : string * list (string * string) -> list B) l : tgets f (nlz l) = tgets f l.
Proof. induction l as [|y l IH]; [reflexivity|]. cbn [nlz flat_map app]. fold (nlz l). rewrite !tgets_cons, IH. reflexivity. Qed.
Lemma nls_get {B} (f : string * list (string * string) -> list B) l : tgets f (nls l) = tgets f l.
Proof. induction l as [|y l IH]; [reflexivity|]. cbn [nls flat_map app]. fold (nls l). now rewrite !tgets_cons, IH. Qed.
Lemma spaced_get {B} (f : string * list (string * string) -> list B) s l : tgets f (spaced s l) = tgets f l.
Proof.
  unfold spaced. destruct (s_layout s); try apply nlz_get. induction l as [|y l IH]; [reflexivity|]. cbn [flat_map app]. rewrite !tgets_cons, IH. reflexivity.
Qed.
Lemma ltitle_ids a b c d f g : quiet f = true -> tget drawing_id (ltitleE a b c d f g) = ["2"] /\ tget drawing_id (lcenterE a b c d f g) = ["2"].
Proof. intros H. apply quiet_ids in H. destruct H as [H1 _]. unfold ltitleE, lcenterE. split; tg; rewrite ?H1; reflexivity. Qed.
Lemma lparas_quiet p l : forallb quiet (lparas p l) = true.
Proof. unfold lparas. induction l as [|y l IH]; [reflexivity|]. cbn [map nlz flat_map app forallb]. rewrite para_quiet. exact IH. Qed.
Lemma lbody_ids a b c d p l : tget drawing_id (lbodyE a b c d (lparas p l)) = ["3"].
Proof. destruct (quiet_ids' _ (lparas_quiet p l)) as [H _]. unfold lbodyE. tg. rewrite H. reflexivity. Qed.
Lemma lcol_ids id n i x p l : tget drawing_id (lcolE id n i x (lparas p l)) = [id].
Proof. destruct (quiet_ids' _ (lparas_quiet p l)) as [H _]. unfold lcolE. tg. rewrite H. cbn. now rewrite ?sapp_nil_r. Qed.
Lemma limage_ids id x y w h n : tget drawing_id (limageE id x y w h n) = [id].
Proof. unfold limageE. tg. cbn. now rewrite ?sapp_nil_r. Qed.
Lemma lroot_ids its : drawing_ids (tnode (lrootE its)) = "1" :: tgets drawing_id its.
Proof.
  unfold drawing_ids. rewrite (tget_node drawing_id (lrootE its) _ _ _ eq_refl). unfold lrootE. tg. cbn. now rewrite ?app_nil_r.
Qed.
Local Opaque ltitleE lcenterE lbodyE lcolE limageE lrootE dec tnode.

Definition ltitle_no (s : slide) : list nat := match s_layout s with Blank => [] | _ => [2] end.
Lemma ltitles_ids s : tgets drawing_id (ltitles s) = map decn (ltitle_no s).
Proof.
  assert (Q : quiet (ltp s) = true) by apply props_quiet. unfold ltitles, ltitle_no.
  destruct (s_layout s); rewrite ?tgets_cons, ?(proj1 (ltitle_ids _ _ _ _ _ _ Q)), ?(proj2 (ltitle_ids _ _ _ _ _ _ Q)); reflexivity.
Qed.
Lemma lbodies_ids s cu : exists b, (tgets drawing_id (ltables s) ++ tgets drawing_id (lboxes s cu))%list = map decn b /\ (b = [] \/ b = [3] \/ b = [3; 4]).
Proof.
  unfold ltables, lboxes. cbv zeta. destruct (s_layout s); try (exists []; split; [reflexivity|now left]).
  - destruct (s_table s).
    + exists [3]. rewrite tgets_cons, (proj1 (table_ids _ _)). split; [reflexivity|now right; left].
    + destruct (bullets_of s); [exists []; split; [reflexivity|now left]|]. exists [3]. rewrite tgets_cons, lbody_ids. split; [reflexivity|now right; left].
  - destruct (bullets_of s); [exists []; split; [reflexivity|now left]|]. exists [3]. rewrite tgets_cons, lbody_ids. split; [reflexivity|now right; left].
  - destruct (Nat.ltb 0 _); [|exists []; split; [reflexivity|now left]]. rewrite tgets_cons, lcol_ids. destruct (Nat.ltb _ _).
    + exists [3; 4]. rewrite tgets_cons, lcol_ids. split; [reflexivity|now right; right].
    + exists [3]. split; [reflexivity|now right; left].
Qed.
Lemma lextra_ids s : (N.of_nat (length (s_shapes s)) + 10 <= u32_max)%N ->
  exists n m, (tgets drawing_id (lshapes s) ++ tgets drawing_id (limages s))%list = map decn (map (fun i => 10 + i) (seq 0 n) ++ map (fun i => 20 + n + i) (seq 0 m)).
Proof.
  intros SM. unfold lshapes, limages. destruct (s_layout s); try (exists 0, 0; reflexivity). exists (length (s_shapes s)), (length (s_images s)).
  rewrite map_app, !map_map. f_equal.
  - assert (G : forall l k, (N.of_nat (k + length l) + 10 <= u32_max)%N ->
      tgets drawing_id (eachT (fun i x => shapeT x (N.of_nat (i + 10) mod (u32_max + 1))%N) k l) = map (fun i => decn (10 + i)) (seq k (length l))).
    { clear. induction l as [|t l IH]; intros k B; [reflexivity|]. cbn [eachT length seq map] in *. rewrite tgets_cons, (proj1 (shape_ids _ _)), IH by lia.
      cbn [app]. f_equal. unfold decn. f_equal. rewrite N.mod_small by lia. lia. }
    apply G. exact SM.
  - apply each_map. intros k y. apply limage_ids.
Qed.
Theorem lay_ids s cu : (N.of_nat (length (s_shapes s)) + 10 <= u32_max)%N -> List.NoDup (drawing_ids (tnode (lrootE (litems s cu)))).
Proof.
  intros SM. rewrite lroot_ids. unfold litems. rewrite !tgets_app, nlz_get, spaced_get, !nls_get, ltitles_ids.
  destruct (lbodies_ids s cu) as (b & Eb & Hb). destruct (lextra_ids s SM) as (n & m & E). rewrite E, (app_assoc (tgets drawing_id (ltables s))), Eb.
  change "1" with (decn 1). rewrite <- !map_app, <- map_cons. apply Injective_map_NoDup; [intros x y H; now apply decn_inj|].
  assert (S : forall c k, List.NoDup (map (fun i => c + i) (seq 0 k))).
  { intros c k. apply Injective_map_NoDup; [intros p q; lia|apply seq_NoDup]. }
  assert (I : forall c k y, In y (map (fun i => c + i) (seq 0 k)) -> c <= y < c + k).
  { intros c k y H. apply in_map_iff in H. destruct H as (i & <- & H). apply in_seq in H. lia. }
  assert (R : List.NoDup (map (fun i => 10 + i) (seq 0 n) ++ map (fun i => 20 + n + i) (seq 0 m)) /\ forall y, In y (map (fun i => 10 + i) (seq 0 n) ++ map (fun i => 20 + n + i) (seq 0 m)) -> 10 <= y).
  { split; [|intros y H; apply in_app_iff in H; destruct H as [H|H]; apply I in H; lia].
    assert (AP : forall (l1 l2 : list nat), List.NoDup l1 -> List.NoDup l2 -> (forall y, In y l1 -> ~ In y l2) -> List.NoDup (l1 ++ l2)).
    { clear. induction l1 as [|a l1 IH]; intros l2 A B C; [exact B|]. inversion A; subst. cbn [app]. constructor.
      - rewrite in_app_iff. intros [Q|Q]; [contradiction|]. exact (C a (or_introl eq_refl) Q).
      - apply IH; auto. intros y H; apply C; now right. }
    apply AP; [apply S|apply S|]. intros y H1 H2. apply I in H1. apply I in H2. lia. }
  destruct R as [R G]. revert R G. generalize (map (fun i => 10 + i) (seq 0 n) ++ map (fun i => 20 + n + i) (seq 0 m))%list. intros r R G. clear - R G Hb.
  assert (C : forall a l, List.NoDup l -> (forall y, In y l -> a < y) -> List.NoDup (a :: l)) by (intros a l A B; constructor; [intros H; specialize (B _ H); lia|exact A]).
  unfold ltitle_no. destruct Hb as [-> | [-> | ->]]; destruct (s_layout s); cbn [app];
  repeat (apply C; [|intros y Hy; repeat (destruct Hy as [Hy|Hy]; [lia|]); specialize (G y Hy); lia]); exact R.
Qed.
