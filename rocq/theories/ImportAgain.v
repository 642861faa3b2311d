(** Importing what was imported and saved again. *)
From Coq Require Import String Ascii List Bool Arith NArith ZArith Lia Permutation.
From Verif Require Import Str Num XmlSpec XmlProofs FontsModel FontsSpec PackageModel TableModel TableSpec ShapeModel SlideModel SlideInput SlideSpec SlideWant SlideBackSpec DeckModel DeckInput
  ReaderModel ReaderSpec DocPropsModel DocPropsProofs ImportModel ImportSpec ImportProofs ImportDeck.
Import ListNotations.
Open Scope nat_scope.
Open Scope string_scope.

Section A.
  Variable fit : string -> N -> N -> N.
  Definition settled_text (o : option string) : Prop :=
    match o with Some u => u <> "" /\ text_ok u = true /\ (listing u -> sjoin nl (filter nonblank (lines u)) = u) /\ visible u = u | None => True end.
  Definition settled (t : shape) : Prop :=
    kept_kind (sh_type t) = sh_type t /\ settled_text (sh_text t) /\ auto_ok fit t /\ forallb (fun n => n <=? u32_max)%N [sh_x t; sh_y t; sh_w t; sh_h t] = true
    /\ sh_fill t = None /\ sh_gradient t = None /\ sh_line t = None /\ sh_id t = None /\ sh_rotation t = None /\ sh_link t = None.
  Lemma text_settled u v : match u with Some t => text_ok t | None => true end = true -> kept_text u v -> settled_text v.
  Proof.
    intros OK [S T]. destruct v as [v|]; [|exact I]. cbn [some_text text_value settled_text] in *. destruct u as [u|]; [|discriminate]. split; [exact S|].
    destruct T as [T1 T2]. destruct (is_code u) eqn:C.
    - apply ListingProofs.is_code_iff in C. specialize (T1 C). clear T2. subst v. pose proof (lines_ok u OK) as LO.
      set (ls := filter nonblank (lines u)) in *. assert (F1 : Forall (fun l => nonblank l = true) ls) by apply filter_holds.
      assert (F2 := forall_filter _ nonblank _ LO). fold ls in F2. assert (F3 : Forall (fun l => l <> "") ls) by (refine (Forall_impl _ _ F1); intros l Hl ->; discriminate).
      split; [apply join_ok; refine (Forall_impl _ _ F2); intros l [Hl _]; exact Hl|]. split.
      + intros _. rewrite (lines_join ls F2 F3). f_equal. now apply filter_all.
      + unfold visible. rewrite join_nonblank; [reflexivity| |exact F1]. intros E. apply S. now rewrite E.
    - apply ListingProofs.is_code_not in C. specialize (T2 C). subst v. split; [now apply visible_ok|]. split; [|apply visible_idem].
      intros LI. elim C. unfold visible in *. destruct (blank u); [congruence|exact LI].
  Qed.
  Lemma kind_idem k : kept_kind (kept_kind k) = kept_kind k.
  Proof. destruct k; reflexivity. Qed.
  Lemma shape_settled v t : shape_ok t = true -> forallb (fun n => n <=? u32_max)%N [sh_x t; sh_y t; sh_w t; sh_h t] = true -> kept_shape v t -> auto_ok fit v -> settled v.
  Proof.
    intros OK F (K & P & T & R) Au. unfold settled. rewrite K, kind_idem. split; [reflexivity|]. injection P as -> -> -> ->.
    split; [|split; [exact Au|split; [exact F|exact R]]]. apply (text_settled (sh_text t)); [|exact T]. unfold shape_ok in OK. rewrite !andb_true_iff in OK. tauto.
  Qed.
  Lemma clamp_fits z : (clamp z <=? u32_max)%N = true.
  Proof. apply N.leb_le. unfold clamp. pose proof (Z.mod_pos_bound (Z.max 0 z) 4294967296 ltac:(lia)). unfold u32_max. lia. Qed.
  Lemma code_settled v c : kept_code v c -> settled v.
  Proof.
    intros ->. unfold settled. cbn [shape_new sh_type sh_text sh_x sh_y sh_w sh_h forallb]. rewrite !clamp_fits. repeat split; reflexivity.
  Qed.
  Lemma settled_same v t : settled t -> kept_shape v t -> auto_ok fit v -> v = t.
  Proof.
    intros (K & T & (A1 & A2) & _ & N1 & N2 & N3 & N4 & N5 & N6) (K' & P & (S' & T') & M1 & M2 & M3 & M4 & M5 & M6) (B1 & B2).
    assert (E : sh_text v = sh_text t).
    { destruct (sh_text t) as [u|]; [|exact T']. destruct T as (U1 & _ & U2 & U3), T' as [T1 T2].
      assert (Q : text_value (sh_text v) = u).
      { destruct (is_code u) eqn:C; [apply ListingProofs.is_code_iff in C; rewrite (T1 C); now apply U2|apply ListingProofs.is_code_not in C; now rewrite (T2 C)]. }
      destruct (sh_text v) as [w|]; cbn in *; congruence. }
    injection P as P1 P2 P3 P4. rewrite E, P3, P4, <- A2 in B2. rewrite <- A1 in B1. rewrite K in K'. rewrite <- N1 in M1. rewrite <- N2 in M2. rewrite <- N3 in M3. rewrite <- N4 in M4. rewrite <- N5 in M5. rewrite <- N6 in M6.
    clear -E P1 P2 P3 P4 B1 B2 K' M1 M2 M3 M4 M5 M6. destruct v, t; cbn in *. congruence.
  Qed.
  Lemma settled_ok t : settled t -> shape_ok t = true.
  Proof.
    intros (_ & T & _ & _ & N1 & N2 & N3 & _ & _ & N4). unfold shape_ok. rewrite N1, N2, N3, N4. destruct (sh_text t) as [u|]; [|reflexivity]. destruct T as (_ & -> & _). reflexivity.
  Qed.
  Lemma settled_link t : settled t -> sh_link t = None.
  Proof. intros T. apply T. Qed.

  (** What imported slides are. *)
  Definition imported (v : slide) : Prop :=
    exists title bs shs g, v = base title bs shs (plain_table g) /\ text_ok title = true /\ visible title = title /\ Forall (fun u => text_ok u = true /\ nonblank u = true) bs
      /\ Forall settled shs /\ (g <> [] -> bs = []) /\ Forall (fun r => r <> [] /\ Forall (fun u => text_ok u = true /\ visible u = u) r) g.
  Lemma in_combine_F2 {B C} (P : B -> C -> Prop) l m x : Forall2 P l m -> In x l -> exists y, In y m /\ P x y.
  Proof. induction 1 as [|a b l m H _ IH]; intros I; [destruct I|]. destruct I as [<-|I]; [exists b; split; [now left|exact H]|]. destruct (IH I) as (y & Y & Z). exists y. split; [now right|exact Z]. Qed.
  Lemma kept_imported s v : slide_ok s = true -> slide_fits s = true -> fits_in fit s v -> imported v.
  Proof.
    intros OK F [(us & cs & U & C & ->) Au]. cbn [s_shapes] in Au. apply Forall_app in Au as [Au Ac].
    unfold slide_ok in OK. rewrite !andb_true_iff in OK. destruct OK as [[[[[[[[[[O1 _] O2] _] O3] _] O4] O5] _] _] _].
    unfold slide_fits in F. rewrite !andb_true_iff in F. destruct F as [[_ F] _].
    exists (match s_layout s with Blank => "" | _ => visible (s_title s) end), (filter nonblank (map b_text (shown_bullets s))), (us ++ cs)%list, (shown_cells s).
    split; [reflexivity|]. split; [destruct (s_layout s); try reflexivity; now apply visible_ok|]. split; [destruct (s_layout s); try reflexivity; apply visible_idem|]. split; [|split; [|split]].
    - apply Forall_forall. intros u I. apply filter_In in I as [I N]. split; [|exact N]. apply in_map_iff in I as (b & <- & I).
      assert (W : In b (wanted s) -> text_ok (b_text b) = true).
      { clear I. unfold wanted. destruct (s_bullets s) as [|b0 l] eqn:E.
        - intros I. apply in_map_iff in I as (t & <- & I). rewrite forallb_forall in O2. now apply O2.
        - intros I. rewrite forallb_forall in O3. apply O3 in I. unfold bullet_ok in I. rewrite !andb_true_iff in I. tauto. }
      unfold shown_bullets in I. destruct (s_layout s); try destruct I; try (now apply W). destruct (s_table s); [destruct I|now apply W].
      all: subst; try (apply W; now left); apply W; now right.
    - apply Forall_app. split.
      + apply Forall_forall. intros x I. destruct (in_combine_F2 _ _ _ _ U I) as (t & J & H). rewrite forallb_forall in O5, F. rewrite Forall_forall in Au. apply (shape_settled x t); auto.
      + apply Forall_forall. intros x I. destruct (in_combine_F2 _ _ _ _ C I) as (t & J & H). exact (code_settled x t H).
    - unfold shown_cells, shown_bullets. destruct (s_layout s); try (intros H; now elim H). destruct (s_table s); [reflexivity|intros H; now elim H].
    - unfold shown_cells. destruct (s_layout s); try constructor. destruct (s_table s) as [t|]; [|constructor]. apply Forall_forall. intros r I. apply filter_In in I as [I N].
      split; [now destruct r|]. apply in_map_iff in I as (w & <- & I). apply Forall_forall. intros u J. apply in_map_iff in J as (c & <- & J).
      unfold table_ok in O4. rewrite forallb_forall in O4. specialize (O4 w I). rewrite forallb_forall in O4. specialize (O4 c J). unfold cell_ok in O4. rewrite !andb_true_iff in O4.
      destruct (h_merge c || v_merge c); [split; reflexivity|]. split; [apply visible_ok; tauto|apply visible_idem].
  Qed.
  Lemma imported_ok v : imported v -> deck_slide_ok v = true /\ slide_fits v = true /\ sizes_ok v = true.
  Proof.
    intros (t & bs & shs & g & -> & T1 & T2 & B & S & G1 & G2).
    assert (LK : forall l, Forall settled l -> flat_map (fun s => match sh_link s with Some h => match h_rid h with Some r => [(h, r)] | None => [] end | None => [] end) l = []).
    { induction 1 as [|x l Hx _ IH]; [reflexivity|]. cbn [flat_map]. rewrite IH, (settled_link x Hx). reflexivity. }
    assert (B0 : forall u, In u bs -> text_ok u = true) by (intros u I; rewrite Forall_forall in B; now apply B).
    assert (TB : forall u c r, In r g -> In c r -> u = c -> text_ok u = true).
    { intros u c r I J ->. rewrite Forall_forall in G2. destruct (G2 r I) as [_ R]. rewrite Forall_forall in R. now apply R. }
    split; [|split].
    - unfold deck_slide_ok. rewrite !andb_true_iff. split; [split; [|reflexivity]|].
      + unfold slide_ok, base. cbn [s_title s_tcolor s_content s_style s_bullets s_ccolor s_table s_shapes s_images s_connectors s_code opt_ok style_ok]. rewrite T1. cbn [forallb andb]. rewrite !andb_true_r, !andb_true_iff.
        repeat split.
        * apply forallb_forall. exact B0.
        * apply forallb_forall. intros b I. apply in_map_iff in I as (u & <- & I). unfold bullet_ok. cbn. now rewrite (B0 u I).
        * unfold plain_table. destruct g as [|r0 g]; [reflexivity|]. unfold table_ok. cbn [rows]. apply forallb_forall. intros r I. apply in_map_iff in I as (w & <- & I). cbn [cells]. apply forallb_forall.
          intros c J. apply in_map_iff in J as (u & <- & J). unfold cell_ok. cbn. now rewrite (TB u u w I J eq_refl).
        * apply forallb_forall. intros x I. apply settled_ok. rewrite Forall_forall in S. now apply S.
      + unfold links_ok, slide_links. cbn [base s_shapes s_images s_connectors]. 
        rewrite ?LK by exact S. reflexivity.
    - unfold slide_fits, base. cbn [s_bullets s_table s_shapes s_code forallb]. rewrite !andb_true_r, !andb_true_iff. repeat split.
      + apply forallb_forall. intros b I. apply in_map_iff in I as (u & <- & I). reflexivity.
      + unfold plain_table. destruct g as [|r0 g]; [reflexivity|]. cbn [rows]. apply forallb_forall. intros r I. apply in_map_iff in I as (w & <- & I). cbn [cells]. apply forallb_forall.
        intros c J. apply in_map_iff in J as (u & <- & J). reflexivity.
      + apply forallb_forall. intros x I. rewrite Forall_forall in S. apply (S x I).
    - unfold sizes_ok, base. cbn [s_csize s_bullets]. apply andb_true_iff. split; [reflexivity|]. apply forallb_forall. intros b I. apply in_map_iff in I as (u & <- & I). reflexivity.
  Qed.
  Lemma imported_same v w : imported v -> fits_in fit v w -> w = v.
  Proof.
    intros (t & bs & shs & g & -> & T1 & T2 & B & S & G1 & G2) [(us & cs & U & C & ->) Au].
    cbn [base s_code s_shapes] in C, U, Au. change (s_title (base t bs shs (plain_table g))) with t. change (s_layout (base t bs shs (plain_table g))) with TitleAndContent.
    inversion C; subst cs. rewrite app_nil_r in *.
    assert (E : us = shs).
    { clear -U Au S. revert S Au. induction U as [|x y l m H _ IH]; intros S Au; [reflexivity|]. inversion S; subst. inversion Au; subst. f_equal; [now apply settled_same|now apply IH]. }
    subst us. rewrite T2.
    assert (BB : filter nonblank (map b_text (match plain_table g with None => wanted (base t bs shs (plain_table g)) | Some _ => [] end)) = bs).
    { destruct g as [|r g]; [|symmetry; apply G1; discriminate]. cbn [plain_table]. unfold wanted. cbn [base s_bullets s_content s_style].
      assert (M : map b_text (map (fun t => BulletPoint t 0 Bullet None) bs) = bs) by (rewrite map_map; apply map_id).
      assert (N : filter nonblank bs = bs) by (apply filter_all; refine (Forall_impl _ _ B); intros a [_ Ha]; exact Ha).
      destruct bs as [|b bs]; [reflexivity|]. change (map (fun t0 => BulletPoint t0 0 Bullet None) (b :: bs)) with (BulletPoint b 0 Bullet None :: map (fun t0 => BulletPoint t0 0 Bullet None) bs) in *. cbn [map b_text] in *. rewrite M. exact N. }
    unfold shown_bullets. change (s_table (base t bs shs (plain_table g))) with (plain_table g). change (s_layout (base t bs shs (plain_table g))) with TitleAndContent. cbv beta iota. rewrite BB.
    assert (GG : shown_cells (base t bs shs (plain_table g)) = g).
    { unfold shown_cells. cbn [base s_layout s_table]. destruct g as [|r0 g]; [reflexivity|]. unfold plain_table. cbn [rows]. rewrite map_map.
      assert (M : map (fun x => map (fun c => if h_merge c || v_merge c then "" else visible (ctext c)) (cells (Row (map cell_new x) None))) (r0 :: g) = r0 :: g).
      { transitivity (map (fun x => x) (r0 :: g)); [|apply map_id]. apply map_ext_in. intros r I. cbn [cells]. rewrite map_map. cbn [cell_new h_merge v_merge orb ctext].
        transitivity (map (fun x => x) r); [|apply map_id]. apply map_ext_in. intros u J. rewrite Forall_forall in G2. destruct (G2 r I) as [_ R]. rewrite Forall_forall in R. now apply R. }
      rewrite M. apply filter_all. apply Forall_forall. intros r I. rewrite Forall_forall in G2. destruct (G2 r I) as [R _]. now destruct r. }
    rewrite GG. reflexivity.
  Qed.
End A.

Lemma imported_again fit X q is_dir keys : (forall n c, In (n, c) (create_pptx_with_settings X (p_title q) (p_slides q) no_settings) -> is_dir n = false) ->
  keys_order (open_entries is_dir (create_pptx_with_settings X (p_title q) (p_slides q) no_settings)) keys -> (N.of_nat (length (p_slides q)) < u32_max)%N ->
  Forall (imported fit) (p_slides q) ->
  exists r, import_pptx fit (open_entries is_dir (create_pptx_with_settings X (p_title q) (p_slides q) no_settings)) keys = Some r
    /\ p_settings r = no_settings /\ p_slides r = p_slides q /\ (plain_title (x_now X) = true -> plain_title (p_title q) = true -> p_title r = visible (p_title q)).
Proof.
  intros D K L A. destruct (deck_import fit X (p_title q) (p_slides q) no_settings is_dir) with (keys := keys) as (r & I & S & F & T); try assumption; [constructor|reflexivity| |].
  - refine (Forall_impl _ _ A). intros v. apply imported_ok.
  - exists r. split; [exact I|]. split; [exact S|]. split; [|exact T]. clear -F A. revert A. induction F as [|v w l m H _ IH]; intros A; [reflexivity|]. inversion A; subst. f_equal; [now apply (imported_same fit)|now apply IH].
Qed.
Lemma deck_imported fit slides l : Forall (fun s => deck_slide_ok s = true /\ slide_fits s = true /\ sizes_ok s = true) slides -> Forall2 (fits_in fit) slides l -> Forall (imported fit) l.
Proof.
  intros A F. revert A. induction F as [|s v ss l H _ IH]; intros A; [constructor|]. inversion A as [|? ? (O & Fi & _) A']; subst. constructor; [|now apply IH].
  unfold deck_slide_ok in O. rewrite !andb_true_iff in O. apply (kept_imported fit s); tauto.
Qed.
