(** Proofs about importing. *)
From Coq Require Import String Ascii List Bool Arith NArith ZArith Lia.
From Verif Require Import Str Num XmlSpec PackageModel TableModel ShapeModel SlideModel SlideSpec SlideWant SlideBackSpec DeckModel GeomSpec ReaderModel MdParseModel ImportModel ImportSpec.
Import ListNotations.
Open Scope string_scope.

Definition base (t : string) (bs : list string) (shs : list shape) (tb : option table) : slide :=
  Slide t bs (map (fun t => BulletPoint t 0 Bullet None) bs) Bullet (Some 44%N) (Some 28%N) true false false false false None None
    TitleAndContent NoTransition tb shs [] None [] [] [] false.
Lemma base_new t : slide_new t = base t [] [] None.
Proof. reflexivity. Qed.
Lemma base_bullets l : forall t bs shs tb, fold_left (fun c t => add_bullet t c) l (base t bs shs tb) = base t (bs ++ l) shs tb.
Proof.
  induction l as [|u l IH]; intros t bs shs tb; [now rewrite app_nil_r|]. cbn [fold_left].
  replace (add_bullet u (base t bs shs tb)) with (base t (bs ++ [u]) shs tb); [rewrite IH, <- app_assoc; reflexivity|]. unfold base, add_bullet. cbn. now rewrite map_app.
Qed.
Definition own (p : pshape) : bool := negb (ps_title p) && negb (ps_body p).
Section P.
  Variable fit : string -> N -> N -> N.
  Lemma base_shapes l : forall t bs shs tb, fold_left (add_shape fit) l (base t bs shs tb) = base t bs (shs ++ map (import_shape fit) (filter own l)) tb.
  Proof.
    induction l as [|p l IH]; intros t bs shs tb; [now rewrite app_nil_r|]. cbn [fold_left filter]. unfold add_shape at 2. fold (own p). destruct (own p); [|apply IH].
    replace (push_shape (base t bs shs tb) (import_shape fit p)) with (base t bs (shs ++ [import_shape fit p]) tb) by reflexivity. rewrite IH, <- app_assoc. reflexivity.
  Qed.
  Definition auto_ok (t : shape) : Prop := sh_dark t = false /\ sh_autofit t = match sh_text t with Some u => fit u (sh_w t) (sh_h t) | None => 0%N end.
  Lemma import_auto p : auto_ok (import_shape fit p).
  Proof. unfold import_shape. cbv zeta. destruct (String.eqb (pshape_text p) ""); split; reflexivity. Qed.
  Lemma u32_back n : (n <= u32_max)%N -> as_u32 (Z.of_N n) = n.
  Proof. intros H. unfold as_u32. rewrite Z.max_r by lia. rewrite Z.mod_small by (unfold u32_max in H; lia). apply N2Z.id. Qed.
  Lemma kind_back k p : match figure k with Some g => ps_type p = Some g | None => exists g, ps_type p = Some g /\ ~ In g preset_figures end -> map_shape_type (ps_type p) = kept_kind k.
  Proof.
    destruct (figure k) as [g|] eqn:F.
    - intros ->. destruct k; try discriminate F; injection F as <-; reflexivity.
    - intros (g & -> & N). replace (kept_kind k) with KRectangle by (destruct k; try discriminate F; reflexivity).
      unfold map_shape_type. repeat match goal with |- context [String.eqb g ?w] => destruct (String.eqb_spec g w) as [->|_]; [reflexivity || (elim N; vm_compute; tauto)|] end. reflexivity.
  Qed.
  Lemma sjoin_one u : sjoin nl [u] = u.
  Proof. reflexivity. Qed.
  Lemma shape_kept p t : forallb (fun n => n <=? u32_max)%N [sh_x t; sh_y t; sh_w t; sh_h t] = true -> back_shape p t -> kept_shape (import_shape fit p) t.
  Proof.
    cbn [forallb]. rewrite !andb_true_iff, !N.leb_le. intros (X & Y & W & H & _) (K & P & T & _). injection P as P1 P2 P3 P4.
    assert (B : sh_type (import_shape fit p) = map_shape_type (ps_type p)) by (unfold import_shape; cbv zeta; destruct (String.eqb (pshape_text p) ""); reflexivity).
    unfold kept_shape. split; [rewrite B; now apply kind_back|].
    split; [unfold import_shape; cbv zeta; destruct (String.eqb (pshape_text p) ""); cbn; rewrite P1, P2, P3, P4, !u32_back by assumption; reflexivity|].
    split; [|unfold import_shape; cbv zeta; destruct (String.eqb (pshape_text p) ""); repeat split; reflexivity].
    assert (E : sh_text (import_shape fit p) = if String.eqb (pshape_text p) "" then None else Some (pshape_text p)) by (unfold import_shape; cbv zeta; destruct (String.eqb (pshape_text p) ""); reflexivity).
    assert (V : text_value (sh_text (import_shape fit p)) = pshape_text p) by (rewrite E; destruct (String.eqb_spec (pshape_text p) "") as [->|]; reflexivity).
    unfold kept_text. split; [rewrite E; destruct (String.eqb_spec (pshape_text p) ""); [exact I|assumption]|].
    destruct (sh_text t) as [u|].
    - destruct T as [T1 T2]. rewrite V. unfold pshape_text. split; intros L; [now rewrite (T1 L)|]. rewrite (T2 L). unfold visible. cbn [filter]. unfold nonblank. now destruct (blank u).
    - unfold pshape_text in E. rewrite T in E. exact E.
  Qed.
  Lemma code_kept p c : back_code p c -> kept_code (import_shape fit p) c.
  Proof.
    intros (T & P & Q & _). injection P as P1 P2 P3 P4. unfold kept_code, import_shape, pshape_text. rewrite T, P1, P2, P3, P4, Q. reflexivity.
  Qed.
  Lemma filter_none {A} (f : A -> bool) l : Forall (fun x => f x = false) l -> filter f l = [].
  Proof. induction 1 as [|x l E _ IH]; [reflexivity|]. cbn. now rewrite E. Qed.
  Lemma filter_all {A} (f : A -> bool) l : Forall (fun x => f x = true) l -> filter f l = l.
  Proof. induction 1 as [|x l E _ IH]; [reflexivity|]. cbn. now rewrite E, IH. Qed.
  Lemma forall2_map {A B C} (P : A -> B -> Prop) (Q : C -> B -> Prop) (f : A -> C) l m : Forall2 P l m -> (forall a b, In b m -> P a b -> Q (f a) b) -> Forall2 Q (map f l) m.
  Proof. induction 1 as [|a b l m Hab _ IH]; intros H; [constructor|]. cbn. constructor; [apply H; [now left|exact Hab]|]. apply IH. intros x y Y. apply H. now right. Qed.
  Lemma forall2_left {A B} (P : A -> B -> Prop) (Q : A -> Prop) l m : Forall2 P l m -> (forall a b, P a b -> Q a) -> Forall Q l.
  Proof. intros F H. induction F; constructor; [eapply H; eassumption|assumption]. Qed.
  Lemma table_kept s t bs shs : fold_left add_table (back_tables s) (base t bs shs None) = base t bs shs (plain_table (shown_cells s)).
  Proof.
    assert (G : forall rs : list (list cell), let f := filter (fun r => match r with [] => false | _ => true end) (map (fun r => map back_cell r) rs) in
      let g := filter (fun r : list string => match r with [] => false | _ => true end) (map (fun r => map (fun c => if h_merge c || v_merge c then "" else visible (ctext c)) r) rs) in
      map (map pc_text) f = g /\ match f with r :: _ => r <> [] | [] => True end).
    { induction rs as [|r rs [I1 I2]]; [split; reflexivity|]. cbn [map filter]. destruct r as [|c r]; [exact (conj I1 I2)|]. cbn [map]. split; [|discriminate]. cbn [map]. rewrite I1. f_equal.
      assert (E : forall c, pc_text (back_cell c) = (if h_merge c || v_merge c then "" else visible (ctext c))) by (intros d; unfold back_cell; now destruct (h_merge d || v_merge d)).
      rewrite E, map_map. f_equal. apply map_ext, E. }
    unfold back_tables, shown_cells. destruct (s_layout s); try reflexivity. destruct (s_table s) as [tb|]; [|reflexivity].
    specialize (G (map cells (rows tb))). rewrite !map_map in G. cbv zeta in G. destruct G as [G1 G2]. rewrite <- G1. clear G1.
    destruct (filter _ _) as [|r l]; [reflexivity|]. cbn [fold_left]. unfold add_table. destruct r as [|c r]; [congruence|]. cbn [length Nat.eqb base s_table].
    unfold plain_table. cbn [map length]. rewrite map_length, !map_map. unfold with_table, base. cbn [s_title s_content s_bullets s_style s_tsize s_csize s_tbold s_cbold s_titalic s_citalic s_tunder s_tcolor s_ccolor s_layout s_transition s_shapes s_images s_notes s_connectors s_charts s_code s_ink].
    replace (map (fun x => Row (map cell_new (map pc_text x)) None) l) with (map (fun r => Row (map (fun x => cell_new (pc_text x)) r) None) l); [reflexivity|].
    apply map_ext. intros x. now rewrite map_map.
  Qed.
  Lemma slide_kept s r : slide_fits s = true -> given_back s r -> kept_slide s (import_slide fit r) /\ Forall auto_ok (s_shapes (import_slide fit r)).
  Proof.
    intros F (T & B & _ & Tb & front & us & cs & S & Fr & U & C).
    assert (E : import_slide fit r = base (match s_layout s with Blank => "" | _ => visible (s_title s) end) (filter nonblank (map b_text (shown_bullets s)))
        (map (import_shape fit) us ++ map (import_shape fit) cs) (plain_table (shown_cells s))).
    { unfold import_slide. cbv zeta. rewrite base_new, base_bullets, base_shapes, B, Tb, S, table_kept. rewrite !filter_app, !map_app. cbn [app].
      rewrite (filter_none own front), (filter_all own us), (filter_all own cs).
      - rewrite T. cbn [map app]. f_equal. now destruct (s_layout s).
      - refine (forall2_left _ _ _ _ C _). intros p c (_ & _ & _ & H1 & H2). unfold own. now rewrite H1, H2.
      - refine (forall2_left _ _ _ _ U _). intros p t (_ & _ & _ & H1 & H2). unfold own. now rewrite H1, H2.
      - refine (Forall_impl _ _ Fr). intros p H. unfold own. destruct (ps_title p), (ps_body p); try discriminate; reflexivity. }
    rewrite E. split.
    - exists (map (import_shape fit) us), (map (import_shape fit) cs). split; [|split; [|reflexivity]].
      + refine (forall2_map _ _ _ _ _ U _). intros p t I H. apply shape_kept; [|exact H]. unfold slide_fits in F. rewrite !andb_true_iff in F. destruct F as [[_ F] _].
        rewrite forallb_forall in F. now apply F.
      + refine (forall2_map _ _ _ _ _ C _). intros p c _. apply code_kept.
    - cbn [base s_shapes]. apply Forall_app. split; apply Forall_forall; intros x X; apply in_map_iff in X as (y & <- & _); apply import_auto.
  Qed.
End P.
