(** Sample slides and counterexamples for C15, C16, C41 and C50. *)
From Coq Require Import String Ascii List Bool Arith NArith ZArith.
From Verif Require Import Str Num XmlSpec XmlPath OpcSpec TableModel TableSpec ConnectorModel ChartModel ShapeModel SlideModel SlideSpec SlideInput SlideWant GeomSpec GeomProofs.
Import ListNotations.
Open Scope nat_scope.
Open Scope string_scope.

Definition chart0 : chart := Chart "Sales" Bar ["a"; "b"] [Series "x" [Value "1" "1"; Value "-2" "2"]] 0 0 100 100.
Definition bullets5 : list bullet :=
  [BulletPoint "one" 0 Bullet None; BulletPoint "two" 1 Number (Some (Format true false true false false true (Some "#FF0000") None (Some 18%N) None));
   BulletPoint "3 & 4" 0 NoBullet None; BulletPoint "" 2 (Custom "-") None; BulletPoint "five" 0 Bullet None].
Definition sample : slide :=
  Slide "A < B & ""C""" [] bullets5 Bullet (Some 44%N) (Some 28%N) true false false true true (Some "#112233") None TitleAndContent Fade None
    [shape_new KStar5 1 2 3 4; Shape KRectangle 5 6 7 8 (Some (Fill "FFFFFF" (Some 50000%N))) None (Some (Line "000000" 12700)) (Some "x < y") None (Some 45%Z)
      (Some (Hyperlink (Url "http://example.org/?a&b") (Some "a ""tip""") false (Some "rId3"))) 1800 true]
    [Image "a.png" 0 0 10 10 (Some "An & image") None [] (Some "bytes") "png"] None
    [Connector Elbow 900 20 100 5 "FF0000" 12700 Dash NoArrow Triangle Large None None None None (Some "a < b")]
    [chart0] [Code "let x = 1 < 2;" "rust" (-5) 0 10 10] true.
Definition columns : slide :=
  Slide "T" [] bullets5 Bullet (Some 44%N) None true false false false false None None TwoColumn NoTransition None [] [] None [] [] [] false.
Definition dropped (l : layout) : slide :=
  Slide "T" [] bullets5 Bullet (Some 44%N) None true false false false false None None l NoTransition None [] [] None [] [] [] false.
Definition tabled : slide :=
  Slide "T" ["a bullet"] [] Bullet (Some 44%N) None true false false false false None None TitleAndContent NoTransition
    (Some (Table [Row [cell_new "a"; cell_new "<b>"] (Some 5%N); Row [cell_new ""; cell_new "z"] None] [7%N; 8%N] 1 2)) [] [] None [] [] [] false.
Definition with_bullet (b : bullet) : slide :=
  Slide "T" [] [b] Bullet None None true false false false false None None TitleAndContent NoTransition None [] [] None [] [] [] false.
Definition with_shape (t : shape) : slide :=
  Slide "T" [] [] Bullet None None true false false false false None None TitleAndContent NoTransition None [t] [] None [] [] [] false.
(** The same slide without bullets, or without a table. *)
Definition without_bullets (s : slide) : slide :=
  Slide (s_title s) [] [] (s_style s) (s_tsize s) (s_csize s) (s_tbold s) (s_cbold s) (s_titalic s) (s_citalic s) (s_tunder s) (s_tcolor s) (s_ccolor s)
    (s_layout s) (s_transition s) (s_table s) (s_shapes s) (s_images s) (s_notes s) (s_connectors s) (s_charts s) (s_code s) (s_ink s).
Definition without_table (s : slide) : slide :=
  Slide (s_title s) (s_content s) (s_bullets s) (s_style s) (s_tsize s) (s_csize s) (s_tbold s) (s_cbold s) (s_titalic s) (s_citalic s) (s_tunder s) (s_tcolor s) (s_ccolor s)
    (s_layout s) (s_transition s) None (s_shapes s) (s_images s) (s_notes s) (s_connectors s) (s_charts s) (s_code s) (s_ink s).

Lemma chosen_id : exists s x, slide_ok s = true /\ xml_read (slide_xml s [] None) = Some x /\ ~ List.NoDup (drawing_ids x).
Proof.
  exists (with_shape (Shape KRectangle 0 0 1 1 None None None None (Some 2%N) None None 0 false)).
  eexists. split; [reflexivity|]. split; [vm_compute; reflexivity|]. intros H.
  match type of H with List.NoDup ?l => assert (E : l = ["1"; "2"; "2"]) by (vm_compute; reflexivity); rewrite E in H end.
  inversion H as [|? ? _ H1]; subst. inversion H1 as [|? ? H2 _]; subst. apply H2. now left.
Qed.
Lemma bullets_dropped s rids ink : In (s_layout s) [Blank; TitleOnly; CenteredTitle; SectionHeader] -> slide_xml s rids ink = slide_xml (without_bullets s) rids ink.
Proof. intros H. destruct s. cbn in H. destruct H as [<-|[<-|[<-|[<-|[]]]]]; reflexivity. Qed.
Lemma table_dropped s rids ink : s_layout s <> TitleAndContent -> slide_xml s rids ink = slide_xml (without_table s) rids ink.
Proof. intros H. destruct s as [f1 f2 f3 f4 f5 f6 f7 f8 f9 f10 f11 f12 f13 l f15 f16 f17 f18 f19 f20 f21 f22 f23]. cbn in H. destruct l; try congruence; reflexivity. Qed.
Lemma table_hides s rids ink t : s_layout s = TitleAndContent -> s_table s = Some t -> slide_xml s rids ink = slide_xml (without_bullets s) rids ink.
Proof. intros H K. destruct s. cbn in H, K. subst. reflexivity. Qed.
Lemma custom_bullet : exists ch, xml_read (slide_xml (with_bullet (BulletPoint "a" 0 (Custom ch) None)) [] None) = None.
Proof. exists """". vm_compute. reflexivity. Qed.
Lemma font_name : exists f, xml_read (slide_xml (with_bullet (BulletPoint "a" 0 Bullet (Some (Format false false false false false false None None None (Some f))))) [] None) = None.
Proof. exists "A & B". vm_compute. reflexivity. Qed.
Lemma shape_color : exists c, xml_read (slide_xml (with_shape (Shape KRectangle 0 0 1 1 (Some (Fill c None)) None None None None None None 0 false)) [] None) = None.
Proof. exists "<". vm_compute. reflexivity. Qed.
Lemma basic_title : exists t, text_ok t = true /\ xml_read (simple_slide_xml 1 t) = None.
Proof. exists "R&D". split; vm_compute; reflexivity. Qed.
Lemma unknown_figure k : figure k = None -> exists s x n g, slide_ok s = true /\ map sh_type (s_shapes s) = [k] /\ xml_read (slide_xml s [] None) = Some x
  /\ In n (slide_shapes x) /\ map (attr "prst") (at_path ["p:spPr"; "a:prstGeom"] n) = [g] /\ ~ In g preset_figures.
Proof.
  intros H. assert (E : match xml_read (slide_xml (with_shape (shape_new k 0 0 1 1)) [] None) with
      Some x => match rev (slide_shapes x) with n :: _ => map (attr "prst") (at_path ["p:spPr"; "a:prstGeom"] n) | [] => [] end | None => [] end = [preset k]).
  { destruct k; try discriminate H; vm_compute; reflexivity. }
  exists (with_shape (shape_new k 0 0 1 1)). destruct (xml_read _) as [x|] eqn:X; [|discriminate E]. exists x.
  destruct (rev (slide_shapes x)) as [|n l] eqn:R; [discriminate E|]. exists n, (preset k).
  split; [destruct k; reflexivity|]. split; [reflexivity|]. split; [reflexivity|]. split; [apply in_rev; rewrite R; now left|]. split; [exact E|]. now apply figure_none.
Qed.
