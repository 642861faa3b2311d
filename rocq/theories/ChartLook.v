(** Proofs about the plots of a chart and their points. *)
From Coq Require Import String Ascii List Bool Arith NArith Lia.
From Verif Require Import Str StrRefl EscapeModel EscapeProofs XmlSpec XmlProofs XmlTpl OpcSpec GenProofs TplRead XmlPath PathRead ChartModel ChartSpec ChartTpl ChartProofs.
Import ListNotations.
Open Scope string_scope.

Definition setting (k : node) : list (string * string) :=
  match k with Elem n _ _ => match attr_opt "val" k with Some v => [(n, v)] | None => [] end | Txt _ => [] end.
Definition plot_of (p : node) : list (string * list (string * string)) :=
  match p with Elem n _ _ => if String.eqb n "c:layout" then [] else [(n, settings p)] | Txt _ => [] end.
Lemma tsnodes_flat {B} (g : node -> list B) a b : (forall s, g (Txt s) = []) -> flat_map g (tsnodes (a ++ b)) = (flat_map g (tsnodes a) ++ flat_map g (tsnodes b))%list.
Proof.
  intros T. induction a as [|t a IH]; [reflexivity|]. cbn [app]. rewrite !tsnodes_cons, !flat_map_app, IH. apply app_assoc.
Qed.
Lemma setting_elem n l b : flat_map setting (tsnodes (TE n l b :: [])) = match attr_opt "val" (tnode (TE n l b)) with Some v => [(n, v)] | None => [] end.
Proof. rewrite tsnodes_cons, (tnodes_elem _ n) by reflexivity. cbn [flat_map app setting tnode]. now rewrite !app_nil_r. Qed.
Lemma pre_settings l : flat_map setting (tsnodes (preT l)) = l.
Proof.
  induction l as [|[n v] l IH]; [reflexivity|]. unfold preT. cbn [flat_map fst snd app]. fold (preT l). rewrite !tsnodes_cons.
  rewrite !flat_map_app, IH. cbn [tnodes flat_map app nlT setting]. unfold attr_opt, attrs_val. cbn [map fst snd find String.eqb Ascii.eqb Bool.eqb option_map app]. unfold vals. cbn. now rewrite sapp_nil_r.
Qed.
Lemma push_settings {A} (g : nat -> A -> list tpl) : (forall k x, flat_map setting (tsnodes (g k x)) = []) -> forall l k, flat_map setting (tsnodes (pushT g k l)) = [].
Proof. intros H. induction l as [|x l IH]; intros k; [reflexivity|]. cbn [pushT]. rewrite tsnodes_flat by reflexivity. now rewrite H, IH. Qed.
Lemma plot_settings n pre ss axes : flat_map setting (tsnodes ss) = [] -> flat_map setting (tsnodes axes) = [] -> n <> "c:layout" ->
  forall l, flat_map plot_of (tsnodes (plotE n (preT pre) ss axes :: l)) = ((n, pre) :: flat_map plot_of (tsnodes l))%list.
Proof.
  intros S A N l. rewrite tsnodes_cons, (tnodes_elem _ n) by reflexivity. cbn [app flat_map]. unfold plotE. cbn [tnode plot_of].
  destruct (String.eqb_spec n "c:layout") as [E|_]; [contradiction|]. cbn [app]. f_equal. f_equal.
  change (settings (tnode (plotE n (preT pre) ss axes)) = pre). unfold settings. fold setting. rewrite children_tnode, elem_map_merge by reflexivity.
  unfold plotE. cbn [tbody]. rewrite !tsnodes_flat by reflexivity. rewrite S, A, pre_settings. now rewrite !app_nil_r.
Qed.
Ltac no_val := cbn [tsnodes tnodes flat_map app nlT]; rewrite ?tsnodes_cons; cbn [tnodes flat_map app setting nlT]; reflexivity.
Lemma series_set f l k : flat_map setting (tsnodes (pushT (fun i s => seriesT (f i) s) k l)) = [].
Proof. apply push_settings. intros i s. unfold seriesT, serE. no_val. Qed.
Lemma scat_set l k : flat_map setting (tsnodes (pushT scatT k l)) = [].
Proof. apply push_settings. intros i s. unfold scatT, scatE. no_val. Qed.
Lemma bub_set l k : flat_map setting (tsnodes (pushT bubT k l)) = [].
Proof. apply push_settings. intros i s. unfold bubT, bubE. no_val. Qed.
Lemma axes_set c p q : flat_map setting (tsnodes (axesT c p q)) = [].
Proof. unfold axesT, catE, valE. no_val. Qed.
Lemma vaxes_set : flat_map setting (tsnodes vaxesT) = [].
Proof. unfold vaxesT, valE. no_val. Qed.
Lemma chart_plots c : plots (tnode (docT c (plotsT c))) = want_plots (ctype c) (length (sers c)).
Proof.
  unfold plots. fold plot_of. rewrite (plots_read plot_of) by reflexivity. unfold plotsT. destruct (ctype c) eqn:T; cbn [want_plots];
    try (rewrite plot_settings; [reflexivity|first [apply (series_set (fun i => i))|apply scat_set|apply bub_set]|first [apply axes_set|apply vaxes_set]|discriminate]).
  - rewrite plot_settings; [reflexivity| |reflexivity|discriminate]. unfold firstT. destruct (sers c); [reflexivity|]. unfold pieE. no_val.
  - rewrite plot_settings; [reflexivity| |reflexivity|discriminate]. unfold firstT. destruct (sers c); [reflexivity|]. unfold doughE. no_val.
  - exact (plot_settings "c:stockChart" [] _ _ (series_set (fun i => i) _ _) (axes_set _ _ _) ltac:(discriminate) []).
  - exact (plot_settings "c:stockChart" [] _ _ (series_set (fun i => i) _ _) (axes_set _ _ _) ltac:(discriminate) []).
  - rewrite plot_settings; [|apply (series_set (fun i => i))|apply axes_set|discriminate]. f_equal.
    destruct (Nat.ltb_spec 1 (length (sers c))) as [H|H]; destruct (Nat.leb_spec (length (sers c)) 1) as [K|K]; try lia; [|reflexivity].
    rewrite plot_settings; [reflexivity|apply (series_set (fun i => length (sers c) / 2 + i))|reflexivity|discriminate].
Qed.

(** ** Points *)
Definition view3 (x : node) := (ser_points x, ser_xs x, ser_sizes x).
Lemma xsT_points s : map pt_of (named "c:pt" (tsnodes (xsT s))) = count_up (fun i _ => decn (i + 1)) (values s).
Proof. apply (push_named "c:pt" _ pt_of (fun p => (decn (fst p), decn (fst p + 1)))). intros k x. apply point_named. Qed.
Lemma absT_points s : map pt_of (named "c:pt" (tsnodes (absT s))) = count_up (fun _ v => shown_abs v) (values s).
Proof. apply (push_named "c:pt" _ pt_of (fun p => (decn (fst p), shown_abs (snd p)))). intros k x. apply point_named. Qed.
Lemma triple {A B C} (a a' : A) (b b' : B) (c c' : C) : a = a' -> b = b' -> c = c' -> (a, b, c) = (a', b', c').
Proof. now intros -> -> ->. Qed.
Ltac block := pread; rewrite ?app_nil_r; try cache; try reflexivity.
Lemma serE_3 idx s : view3 (tnode (serE idx s (flat_map valueT (values s)))) = (map (fun v => ("0", shown v)) (values s), [], []).
Proof. unfold view3. rewrite serE_points, valueT_points. unfold ser_xs, ser_sizes, serE. apply triple; [reflexivity| |]; block. Qed.
Lemma scatE_3 idx s : view3 (tnode (scatE idx s (xsT s) (valsT s))) = (count_up (fun _ v => shown v) (values s), count_up (fun i _ => decn (i + 1)) (values s), []).
Proof.
  unfold view3. rewrite scatE_points, valsT_points. rewrite <- xsT_points. unfold ser_xs, ser_sizes, scatE. apply triple; [reflexivity| |]; block.
Qed.
Lemma bubE_3 idx s : view3 (tnode (bubE idx s (xsT s) (valsT s) (absT s)))
  = (count_up (fun _ v => shown v) (values s), count_up (fun i _ => decn (i + 1)) (values s), count_up (fun _ v => shown_abs v) (values s)).
Proof.
  unfold view3. rewrite bubE_points, valsT_points. rewrite <- xsT_points, <- absT_points. unfold ser_xs, ser_sizes, bubE. apply triple; [reflexivity| |]; block.
Qed.
Lemma pieE_3 c s cs : view3 (tnode (pieE c s (valsT s) cs)) = (count_up (fun _ v => shown v) (values s), [], []).
Proof. unfold view3. rewrite pieE_points, valsT_points. unfold ser_xs, ser_sizes, pieE. apply triple; [reflexivity| |]; block. Qed.
Lemma doughE_3 c s cs : view3 (tnode (doughE c s (valsT s) cs)) = (count_up (fun _ v => shown v) (values s), [], []).
Proof. unfold view3. rewrite doughE_points, valsT_points. unfold ser_xs, ser_sizes, doughE. apply triple; [reflexivity| |]; block. Qed.
Lemma map_numbered {A B} (f : A -> B) l : forall k, map (fun p => f (snd p)) (numbered k l) = map f l.
Proof. induction l as [|x l IH]; intros k; [reflexivity|]. cbn [numbered map snd]. now rewrite IH. Qed.
Ltac ser1 := rewrite named_list by reflexivity; cbn [filter called tname nlT String.eqb Ascii.eqb Bool.eqb map snd].
Lemma series_3 f l k : map view3 (named "c:ser" (tsnodes (pushT (fun i s => seriesT (f i) s) k l))) = map (fun s => (map (fun v => ("0", shown v)) (values s), [], [])) l.
Proof.
  rewrite <- (map_numbered _ l k). apply (push_named "c:ser" _ view3 (fun p => (map (fun v => ("0", shown v)) (values (snd p)), [], []))). intros i s. unfold seriesT. ser1.
  now rewrite <- (serE_3 (f i)).
Qed.
Lemma scat_3 l k : map view3 (named "c:ser" (tsnodes (pushT scatT k l))) = map (want_points Scatter) l.
Proof.
  rewrite <- (map_numbered _ l k). apply (push_named "c:ser" _ view3 (fun p => want_points Scatter (snd p))). intros i s. unfold scatT. ser1. cbn [want_points].
  now rewrite <- (scatE_3 i).
Qed.
Lemma bub_3 l k : map view3 (named "c:ser" (tsnodes (pushT bubT k l))) = map (want_points Bubble) l.
Proof.
  rewrite <- (map_numbered _ l k). apply (push_named "c:ser" _ view3 (fun p => want_points Bubble (snd p))). intros i s. unfold bubT. ser1. cbn [want_points].
  now rewrite <- (bubE_3 i).
Qed.
Lemma chart_points c : map view3 (series_nodes (tnode (docT c (plotsT c)))) = map (want_points (ctype c)) (drawn c).
Proof.
  rewrite doc_series. unfold plotsT, drawn. destruct (ctype c) eqn:T; cbn [first_only].
  all: try (pone; apply (series_3 (fun i => i))).
  all: try (pone; apply scat_3).
  all: try (pone; apply bub_3).
  - pone. unfold firstT. destruct (sers c) as [|s l]; [reflexivity|]. ser1. cbn [firstn map want_points]. now rewrite <- (pieE_3 c s (catsT c)).
  - pone. unfold firstT. destruct (sers c) as [|s l]; [reflexivity|]. ser1. cbn [firstn map want_points]. now rewrite <- (doughE_3 c s (catsT c)).
  - unfold combo_bars, combo_lines. destruct (Nat.ltb_spec 1 (length (sers c))) as [H|H].
    + rewrite plot_read, axesT_ser, preT_none by reflexivity. pone. rewrite map_app, (series_3 (fun i => i)), (series_3 (fun i => length (sers c) / 2 + i)), <- map_app, firstn_skipn. reflexivity.
    + pone. rewrite (series_3 (fun i => i)). assert (length (sers c) / 2 = 0) as -> by (apply Nat.div_small; lia). rewrite firstn_all2 by (cbn; lia). reflexivity.
Qed.
Theorem chart_drawn c : chart_ok c -> exists x, xml_read (chart_part_xml c) = Some x /\ plots x = want_plots (ctype c) (length (sers c))
  /\ map (fun s => (ser_points s, ser_xs s, ser_sizes s)) (series_nodes x) = map (want_points (ctype c)) (drawn c).
Proof. intros H. exists (tnode (docT c (plotsT c))). split; [apply chart_read, H|]. split; [apply chart_plots|apply chart_points]. Qed.
