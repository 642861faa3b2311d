(** Headings, places, mind maps and quadrant charts: examples, and where they go wrong. *)
From Coq Require Import Lia  String Ascii List Bool Arith NArith ZArith Permutation.
From Verif Require Import Str Num ShapeModel ConnectorModel FlowModel FlowSpec FlowRefute DiagramModel DiagramSpec DiagramCommon DiagramTime DiagramRefute GraphSpec GraphRefute PlaceSpec PlaceThms.
Import ListNotations.
Open Scope nat_scope.
Open Scope string_scope.

(** ** Headings *)
Lemma headed : announces "State Diagram" "   STATEdiagram-V2  " /\ announces "Pie Chart" "pie showData" /\ announces "ER Diagram" "erDiagram".
Proof.
  split; [|split].
  - exists "stateDiagram-v2". split; [cbn; tauto|]. exists "". vm_compute. reflexivity.
  - exists "pie". split; [cbn; tauto|]. exists " showdata". vm_compute. reflexivity.
  - exists "erDiagram". split; [cbn; tauto|]. exists "". vm_compute. reflexivity.
Qed.
Lemma unknown_heading : forallb (fun w => negb (starts_with w (lowercase (trim "  sankey-beta")))) beginnings = true.
Proof. vm_compute. reflexivity. Qed.
(** Any word that begins alike will do, and a remark before the heading hides it. *)
Lemma lookalike : snd (place out0 (doc ["Eruption of 1883"])) = "ER Diagram" /\ snd (place out0 (doc ["stately homes"])) = "State Diagram".
Proof. split; vm_compute; reflexivity. Qed.
Lemma hidden_heading : place out0 (doc ["%% a remark"; "pie"; """A"" : 1"]) = place out0 (doc ["%% a remark"]) /\ snd (place out0 (doc ["%% a remark"; "pie"; """A"" : 1"])) = "Diagram".
Proof. split; vm_compute; reflexivity. Qed.

(** ** Places *)
Lemma state_small : small (d_shapes (draw out0 state_code)) (d_connectors (draw out0 state_code)).
Proof.
  split; apply Forall_forall.
  - assert (H : forallb (fun s => (right_of s <=? 2000000000) && (bottom_of s <=? 2000000000))%N (d_shapes (draw out0 state_code)) = true) by (vm_compute; reflexivity).
    intros s I. rewrite forallb_forall in H. specialize (H s I). apply andb_prop in H as [A B]. split; apply N.leb_le; assumption.
  - assert (H : forallb (fun c => (start_x c <=? 2000000000) && (start_y c <=? 2000000000) && (end_x c <=? 2000000000) && (end_y c <=? 2000000000))%N (d_connectors (draw out0 state_code)) = true) by (vm_compute; reflexivity).
    intros c I. rewrite forallb_forall in H. specialize (H c I). apply andb_prop in H as [H D]. apply andb_prop in H as [H C]. apply andb_prop in H as [A B]. repeat split; apply N.leb_le; assumption.
Qed.
Lemma state_spans : spans sh_x right_of (d_shapes (draw out0 state_code)) 1000000 6900000 /\ spans sh_y bottom_of (d_shapes (draw out0 state_code)) 1800000 3500000 /\ snd (place out0 state_code) <> "Flowchart".
Proof.
  assert (B : forall (l : list shape) f v, forallb (fun s => (v <=? f s)%N) l = true -> forall s, In s l -> (v <= f s)%N). { intros l f v H s I. rewrite forallb_forall in H. apply N.leb_le. exact (H s I). }
  assert (B' : forall (l : list shape) f v, forallb (fun s => (f s <=? v)%N) l = true -> forall s, In s l -> (f s <= v)%N). { intros l f v H s I. rewrite forallb_forall in H. apply N.leb_le. exact (H s I). }
  assert (E : forall (l : list shape) f v, existsb (fun s => (f s =? v)%N) l = true -> exists s, In s l /\ f s = v). { intros l f v H. apply existsb_exists in H as (s & I & Q). exists s. split; [exact I|now apply N.eqb_eq]. }
  split; [split; [apply E; vm_compute; reflexivity|split; [apply B; vm_compute; reflexivity|split; [apply E; vm_compute; reflexivity|apply B'; vm_compute; reflexivity]]]|].
  split; [split; [apply E; vm_compute; reflexivity|split; [apply B; vm_compute; reflexivity|split; [apply E; vm_compute; reflexivity|apply B'; vm_compute; reflexivity]]]|]. vm_compute. discriminate.
Qed.
(** A diagram is never moved up or to the left: one that would fit runs off the slide. *)
Definition tall : string := doc ("stateDiagram" :: map (fun k => "S" ++ decn k ++ " --> S" ++ decn (S k)) (seq 1 14)).
Lemma runs_off : Forall (fun s => (1800000 <= sh_y s /\ bottom_of s <= 1800000 + (slide_height - title_height))%N) (d_shapes (draw out0 tall)) /\ exists s, In s (fst (fst (place out0 tall))) /\ (slide_height < bottom_of s)%N.
Proof.
  split.
  { apply Forall_forall. assert (H : forallb (fun s => (1800000 <=? sh_y s) && (bottom_of s <=? 1800000 + (slide_height - title_height)))%N (d_shapes (draw out0 tall)) = true) by (vm_compute; reflexivity).
    intros s I. rewrite forallb_forall in H. specialize (H s I). apply andb_prop in H as [A B]. split; apply N.leb_le; assumption. }
  assert (H : existsb (fun s => (slide_height <? bottom_of s)%N) (fst (fst (place out0 tall))) = true) by (vm_compute; reflexivity).
  apply existsb_exists in H as (s & I & Q). exists s. split; [exact I|apply N.ltb_lt; exact Q].
Qed.
(** Wide diagrams are not made smaller. *)
Definition wide : string := doc ("sequenceDiagram" :: map (fun k => "participant P" ++ decn k) (seq 1 9)).
Lemma too_wide : exists s, In s (fst (fst (place out0 wide))) /\ (slide_width < right_of s)%N.
Proof.
  assert (H : existsb (fun s => (slide_width <? right_of s)%N) (fst (fst (place out0 wide))) = true) by (vm_compute; reflexivity). apply existsb_exists in H as (s & I & Q). exists s. split; [exact I|apply N.ltb_lt; exact Q].
Qed.

(** ** Mind maps *)
Definition mind0 : mind_doc := ("Our plan", [("Research", ["Papers"; "Talks"]); ("Build", []); ("Sell & tell", ["Shop"])]).
Definition mind_code : string := doc
  ["mindmap"; "  ((Our plan))"; "    Research  "; "          [Papers]"; "%% more"; "            Talks"; ""; "    (Build)"; "    Sell & tell"; "         Shop"].
Lemma mind_fine : mind_ok mind0 = true /\ writes_mind mind0 mind_code.
Proof.
  split; [vm_compute; reflexivity|]. exists (tl (lines mind_code)). split; [vm_compute; reflexivity|].
  match goal with |- Forall2 _ _ ?l => let x := eval vm_compute in l in change l with x end. unfold mind_rows. cbn [fst snd mind0 flat_map map app].
  constructor; [exists 2, 0, Disc; split; [unfold indented; cbn [fst]; lia|reflexivity]|]. constructor; [exists 4, 2, Bare; split; [unfold indented; cbn [fst]; lia|reflexivity]|]. constructor; [exists 10, 0, Square; split; [unfold indented; cbn [fst]; lia|reflexivity]|]. constructor; [exists 12, 0, Bare; split; [unfold indented; cbn [fst]; lia|reflexivity]|].
  constructor; [exists 4, 0, Round; split; [unfold indented; cbn [fst]; lia|reflexivity]|]. constructor; [exists 4, 0, Bare; split; [unfold indented; cbn [fst]; lia|reflexivity]|]. constructor; [exists 9, 0, Bare; split; [unfold indented; cbn [fst]; lia|reflexivity]|]. constructor.
Qed.
Definition out1 : outside := {| o_alpha := o_alpha out0; o_num := o_num out0; o_f64 := o_f64 out0; o_percent := o_percent out0;
  o_ring1 := fun n k => match k with O => (2000000, 0)%N | S O => (0, 2000000)%N | _ => (0, 0)%N end; o_ring2 := fun n k => match k with O => (3200000, 0)%N | S O => (0, 3200000)%N | _ => (0, 0)%N end;
  o_spot := fun _ _ => (1800000, 1600000)%N; o_wordy := o_wordy out0; o_order := o_order out0; o_entities := o_entities out0 |}.
Lemma rings_near : near_rings out1.
Proof. intros n k. cbn. destruct k as [|[|k]]; repeat split; discriminate. Qed.
Lemma mind_shown : texts (draw out1 mind_code) = [None; Some "Our plan"; None; Some "Research"; None; Some "Build"; None; Some "Sell & tell"; None; Some "Papers"; None; Some "Talks"; None; Some "Shop"].
Proof. vm_compute. reflexivity. Qed.
(** The leaves of a branch are all at one place, whatever the rings are. *)
Lemma leaves_covered o d code : near_rings o -> mind_ok d = true -> writes_mind d code ->
  forall i j k a b, nth_error (leaves_of d) i = Some (k, a) -> nth_error (leaves_of d) j = Some (k, b) -> exists s t, In s (d_shapes (draw o code)) /\ In t (d_shapes (draw o code)) /\ sh_text s = Some a /\ sh_text t = Some b /\ sh_x s = sh_x t /\ sh_y s = sh_y t.
Proof.
  intros NR H (rest & L & F) i j k a b A B. assert (D : detect_type code = MMindmap) by (unfold detect_type, first_line; rewrite L; reflexivity). rewrite (draw_by o _ code D). cbn [from_shapes from_shapes_and_connectors d_shapes].
  unfold mind_shapes. rewrite L. cbn [tl]. rewrite (mind_read d rest H F). cbn [mi_root mi_level1 mi_level2].
  assert (K : k < length (branches_of d)). { apply nth_error_In in A. unfold leaves_of in A. apply in_flat_map in A as ([k' b'] & I & J). apply in_map_iff in J as (x & E & _). injection E as <- <-. apply in_combine_l, in_seq in I. unfold branches_of. rewrite map_length. apply I. }
  apply Nat.ltb_lt in K. destruct (ring_place (o_ring2 o (length (branches_of d)) k)) as [x y] eqn:P.
  assert (X : forall i t, nth_error (leaves_of d) i = Some (k, t) -> forall q, In q (create_labeled_shape KRoundedRectangle x y 1500000 400000 (Some "E8EAF6") (Some "3949AB") t Inside_of) -> In q (flat_map (fun '(k, text) => if Nat.ltb k (length (branches_of d)) then let '(x, y) := ring_place (o_ring2 o (length (branches_of d)) k) in
    create_labeled_shape KRoundedRectangle x y 1500000 400000 (Some "E8EAF6") (Some "3949AB") text Inside_of else []) (leaves_of d))).
  { intros i' t E q Q. apply in_flat_map. exists (k, t). split; [now apply nth_error_In in E|]. cbv beta iota. rewrite K, P. exact Q. }
  exists (nth 1 (create_labeled_shape KRoundedRectangle x y 1500000 400000 (Some "E8EAF6") (Some "3949AB") a Inside_of) (shape_new KRectangle 0 0 0 0)), (nth 1 (create_labeled_shape KRoundedRectangle x y 1500000 400000 (Some "E8EAF6") (Some "3949AB") b Inside_of) (shape_new KRectangle 0 0 0 0)).
  split; [do 2 (apply in_or_app; right); apply (X i a A); right; left; reflexivity|]. split; [do 2 (apply in_or_app; right); apply (X j b B); right; left; reflexivity|]. repeat split.
Qed.
(** With two blanks to a level leaves are taken for branches. *)
Lemma two_blanks o : draw o (doc ["mindmap"; "  Plan"; "    Research"; "      Papers"]) = draw o (doc ["mindmap"; "  Plan"; "    Research"; "    Papers"]).
Proof. reflexivity. Qed.
(** Names in front of brackets stay, and so do the brackets behind them. *)
Lemma root_name : drawn_texts ["mindmap"; "  root((Plan))"] = [None; Some "root((Plan"].
Proof. vm_compute. reflexivity. Qed.
Lemma second_root : drawn_texts ["mindmap"; "Plan"; "Other"; "          deep"] = [None; Some "Plan"].
Proof. vm_compute. reflexivity. Qed.

(** ** Quadrant charts *)
Definition quad0 : list quad_item := [QAside "title Reach and engagement"; QAside "x-axis Low --> High"; Point "Campaign A" "0.3" "0.6"; QAside "quadrant-1 Expand [now]"; QAside ""; Point "B" "0.45" "0.23"].
Definition quad_code : string := doc ["quadrantChart"; "  title Reach and engagement"; "  x-axis Low --> High"; "  Campaign A:[0.3, 0.6]"; "quadrant-1 Expand [now]"; ""; "B:[0.45, 0.23]"].
Lemma quad_fine : forallb quad_ok quad0 = true /\ marks quad0 <> [] /\ Forall (spot_fits (o_spot out1)) (marks quad0) /\ writes "quadrantChart" (map quad_text quad0) quad_code.
Proof. split; [vm_compute; reflexivity|]. split; [discriminate|]. split; [repeat (constructor; [repeat split; discriminate|]); constructor|]. exists (tl (lines quad_code)). split; vm_compute; reflexivity. Qed.
(** Titles and names of axes and quadrants are never drawn. *)
Lemma names_unused o d1 d2 c1 c2 : forallb quad_ok d1 = true -> forallb quad_ok d2 = true -> marks d1 = marks d2 -> writes "quadrantChart" (map quad_text d1) c1 -> writes "quadrantChart" (map quad_text d2) c2 -> draw o c1 = draw o c2.
Proof.
  intros H1 H2 M W1 W2. apply rows_written in W1 as [R1 L1], W2 as [R2 L2]. assert (D1 : detect_type c1 = MQuadrant) by (unfold detect_type; rewrite L1; reflexivity). assert (D2 : detect_type c2 = MQuadrant) by (unfold detect_type; rewrite L2; reflexivity).
  rewrite (draw_by o _ c1 D1), (draw_by o _ c2 D2). unfold quad_shapes. rewrite R1, R2.
  assert (E : forall d, forallb quad_ok d = true -> flat_map (quad_line (o_spot o)) (map quad_text d) = map (fun m => (fst m, o_spot o (fst (snd m)) (snd (snd m)))) (marks d)).
  { clear. intros d. unfold marks. induction d as [|it d IH]; intros H; [reflexivity|]. cbn [forallb] in H. apply andb_prop in H as [I H]. cbn [map flat_map]. rewrite (quad_read _ _ I), (IH H), map_app. now destruct it. }
  now rewrite (E d1 H1), (E d2 H2), M.
Qed.
(** With a blank behind it the colon stays in the name. *)
Lemma colon_kept : drawn_texts ["quadrantChart"; "Campaign A: [0.3, 0.6]"] = [None; None; None; None; None; Some "Campaign A:"].
Proof. vm_compute. reflexivity. Qed.
