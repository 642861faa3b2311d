From Coq Require Import String Ascii List Bool Arith NArith Lia FinFun.
From Verif Require Import Str StrRefl EscapeModel EscapeProofs XmlSpec XmlProofs XmlTpl OpcSpec GenProofs TplRead XmlPath PathRead ChartModel ChartSpec ChartTpl.
Import ListNotations.
Open Scope string_scope.

(** ** Well-formedness *)
Lemma number_plain s : sforall number_char s = true -> sforall plain_text s && sforall not_cr s = true.
Proof.
  intros H. apply andb_true_iff. split; (eapply sforall_weaken; [|exact H]);
  intros [[] [] [] [] [] [] [] []]; vm_compute; congruence.
Qed.
Lemma lit_ok_num s : sforall number_char s = true -> pt_ok (Lit s) = true.
Proof. apply number_plain. Qed.
Lemma pointT_toks i p : pt_ok p = true -> toks (pointT i p).
Proof. intros H. unfold pointT, nlT. toks_solve. Qed.
Lemma valueT_toks l : Forall numv l -> toks (flat_map valueT l).
Proof.
  induction 1 as [|v l [H _] _ IH]; [exact I|]. cbn [flat_map]. apply toks_app_i; [|exact IH].
  apply number_plain, andb_true_iff in H. destruct H. unfold valueT, nlT. toks_solve.
Qed.
Lemma catsT_toks c : chart_ok c -> toks (catsT c).
Proof. intros (_ & H & _). apply (push_toks (fun s => text_ok s = true)); [|exact H]. intros k x E. apply pointT_toks. exact E. Qed.
Lemma valsT_toks s : ser_ok s -> toks (valsT s).
Proof. intros (_ & H). apply (push_toks numv); [|exact H]. intros k x [E _]. apply pointT_toks. now apply lit_ok_num. Qed.
Lemma absT_toks s : ser_ok s -> toks (absT s).
Proof. intros (_ & H). apply (push_toks numv); [|exact H]. intros k x [_ E]. apply pointT_toks. now apply lit_ok_num. Qed.
Lemma xsT_toks s : ser_ok s -> toks (xsT s).
Proof. intros (_ & H). apply (push_toks numv); [|exact H]. intros k x _. apply pointT_toks. apply decn_txt. Qed.

(** Descend through a template, leaving blocks that are assumed. *)
Ltac tstep :=
  lazymatch goal with
  | |- tok (TE _ _ _) => apply tok_TE; [vm_compute; reflexivity|unfold tattrs_ok; apply andb_true_iff; split; [vm_compute; reflexivity|pieces_ok]|]
  | |- tok (TS _ _) => split; [vm_compute; reflexivity|unfold tattrs_ok; apply andb_true_iff; split; [vm_compute; reflexivity|pieces_ok]]
  | |- tok (TT _) => cbn [tok]; pieces_ok
  | |- tok nlT => apply nlT_tok
  | |- toks (_ ++ _)%list => apply toks_app_i
  | |- toks (_ :: _) => split
  | |- toks [] => exact I
  | |- toks ?x => assumption
  end.
Ltac twf := cbn [app]; repeat tstep.

Lemma serE_tok idx s vs : ser_ok s -> toks vs -> tok (serE idx s vs).
Proof. intros (H & _) V. unfold serE. twf. Qed.
Lemma pieE_tok c s vs cs : ser_ok s -> toks vs -> toks cs -> tok (pieE c s vs cs).
Proof. intros (H & _) V C. unfold pieE. twf. Qed.
Lemma doughE_tok c s vs cs : ser_ok s -> toks vs -> toks cs -> tok (doughE c s vs cs).
Proof. intros (H & _) V C. unfold doughE. twf. Qed.
Lemma scatE_tok i s vs xs : ser_ok s -> toks vs -> toks xs -> tok (scatE i s xs vs).
Proof. intros (H & _) V C. unfold scatE. twf. Qed.
Lemma bubE_tok i s vs xs bs : ser_ok s -> toks vs -> toks xs -> toks bs -> tok (bubE i s xs vs bs).
Proof. intros (H & _) V C B. unfold bubE. twf. Qed.
Lemma catE_tok c p cs : sforall plain_val p = true -> toks cs -> tok (catE c p cs).
Proof. intros P C. unfold catE. twf. Qed.
Lemma valE_tok p : sforall plain_val p = true -> tok (valE p).
Proof. intros P. unfold valE. twf. Qed.
Lemma toks_cons_i t l : tok t -> toks l -> toks (t :: l).
Proof. now split. Qed.
Lemma axesT_toks c p1 p2 : chart_ok c -> sforall plain_val p1 = true -> sforall plain_val p2 = true -> toks (axesT c p1 p2).
Proof. intros H P Q. pose proof (catsT_toks c H). unfold axesT. repeat (apply toks_cons_i; [first [apply nlT_tok|now apply catE_tok|now apply valE_tok]|]). exact I. Qed.
Lemma vaxesT_toks : toks vaxesT.
Proof. unfold vaxesT. repeat (apply toks_cons_i; [first [apply nlT_tok|now apply valE_tok]|]). exact I. Qed.
Lemma series_toks k s : ser_ok s -> toks (seriesT k s).
Proof. intros H. split; [apply nlT_tok|split; [apply serE_tok; [exact H|apply valueT_toks, H]|exact I]]. Qed.
Lemma scat_toks k s : ser_ok s -> toks (scatT k s).
Proof. intros H. split; [apply nlT_tok|split; [apply scatE_tok; [exact H|apply valsT_toks, H|apply xsT_toks, H]|exact I]]. Qed.
Lemma bub_toks k s : ser_ok s -> toks (bubT k s).
Proof. intros H. split; [apply nlT_tok|split; [apply bubE_tok; [exact H|apply valsT_toks, H|apply xsT_toks, H|apply absT_toks, H]|exact I]]. Qed.
Lemma plotE_tok n pre ss axes : is_name n = true -> toks pre -> toks ss -> toks axes -> tok (plotE n pre ss axes).
Proof. intros N P S A. apply tok_TE; [exact N|reflexivity|]. now repeat apply toks_app_i. Qed.
Lemma preT_toks l : forallb (fun p => is_name (fst p) && sforall plain_val (snd p)) l = true -> toks (preT l).
Proof.
  induction l as [|[n v] l IH]; [intros; exact I|]. cbn [forallb fst snd]. rewrite !andb_true_iff. intros [[N V] H].
  unfold preT. cbn [flat_map]. apply toks_app_i; [|apply IH, H]. cbn [fst snd]. split; [apply nlT_tok|split; [|exact I]]. split; [exact N|].
  unfold tattrs_ok. apply andb_true_iff. split; [reflexivity|]. cbn [forallb snd fst pv_ok]. now rewrite V.
Qed.
Lemma Forall_firstn' {A} (P : A -> Prop) n l : Forall P l -> Forall P (firstn n l).
Proof. intros H. revert n. induction H; intros [|n]; cbn; constructor; auto. Qed.
Lemma Forall_skipn' {A} (P : A -> Prop) n l : Forall P l -> Forall P (skipn n l).
Proof. intros H. revert n. induction H; intros [|n]; cbn; auto. Qed.
Lemma plotsT_toks c : chart_ok c -> toks (plotsT c).
Proof.
  intros H. assert (S := H). destruct S as (_ & _ & S).
  assert (A1 := push_toks ser_ok seriesT series_toks (sers c) 0 S).
  assert (A2 := push_toks ser_ok scatT scat_toks (sers c) 0 S).
  assert (A3 := push_toks ser_ok bubT bub_toks (sers c) 0 S).
  assert (X : forall p1 p2, sforall plain_val p1 = true -> sforall plain_val p2 = true -> toks (axesT c p1 p2)) by (intros; now apply axesT_toks).
  pose proof vaxesT_toks as V. pose proof (catsT_toks c H) as C.
  unfold plotsT. destruct (ctype c); try (split; [|exact I]; apply plotE_tok; [reflexivity|first [exact I|apply preT_toks; reflexivity]|assumption|first [apply X; reflexivity|assumption]]).
  - split; [|exact I]. apply plotE_tok; [reflexivity|apply preT_toks; reflexivity| |exact I].
    unfold firstT. destruct S as [|s l Hs _]; [exact I|]. split; [apply nlT_tok|split; [|exact I]]. apply pieE_tok; auto. now apply valsT_toks.
  - split; [|exact I]. apply plotE_tok; [reflexivity|apply preT_toks; reflexivity| |exact I].
    unfold firstT. destruct S as [|s l Hs _]; [exact I|]. split; [apply nlT_tok|split; [|exact I]]. apply doughE_tok; auto. now apply valsT_toks.
  - split.
    + apply plotE_tok; [reflexivity|apply preT_toks; reflexivity| |apply X; reflexivity].
      apply (push_toks ser_ok seriesT series_toks). now apply Forall_firstn'.
    + destruct (Nat.ltb 1 (length (sers c))); [|exact I]. split; [|exact I].
      apply plotE_tok; [reflexivity|apply preT_toks; reflexivity| |exact I].
      apply (push_toks ser_ok (fun i s => seriesT (length (sers c) / 2 + i) s)); [intros; now apply series_toks|]. now apply Forall_skipn'.
Qed.
Lemma docT_tok c plots : chart_ok c -> toks plots -> tok (docT c plots).
Proof. intros (H & _ & _) P. unfold docT. twf. Qed.

(** ** Reading *)
Lemma elem_map_merge {B} (g : node -> list B) l : (forall s, g (Txt s) = []) -> flat_map g (merge_text l) = flat_map g l.
Proof.
  intros T. induction l as [|[m a k|s] l IH]; [reflexivity| |].
  - cbn [merge_text flat_map]. now rewrite IH.
  - cbn [flat_map]. rewrite T, <- IH. cbn [merge_text app].
    destruct (merge_text l) as [|[m a k|t] r]; destruct (String.eqb s ""); cbn [flat_map]; rewrite ?T; reflexivity.
Qed.
(** Every child of the plot area read with [g]. *)
Lemma tsnodes_cons t l : tsnodes (t :: l) = (tnodes t ++ tsnodes l)%list.
Proof. reflexivity. Qed.
Lemma plots_read {B} (g : node -> list B) c plots : (forall s, g (Txt s) = []) -> g (Elem "c:layout" [] []) = [] ->
  flat_map g (plot_children (tnode (docT c plots))) = flat_map g (tsnodes plots).
Proof.
  intros T L. unfold plot_children, docT. rewrite path_list by reflexivity.
  cbn [tbody filter called tname String.eqb Ascii.eqb Bool.eqb map flat_map]. rewrite app_nil_r, path_one, named_children, named_list by reflexivity.
  cbn [tbody filter called tname String.eqb Ascii.eqb Bool.eqb map flat_map]. rewrite app_nil_r.
  rewrite children_tnode. cbn [tbody]. rewrite elem_map_merge by exact T. cbn [app].
  rewrite !tsnodes_cons. cbn [tnodes app flat_map]. change (attrs_val []) with (@nil (string * string)). rewrite ?T, ?L. cbn [app]. rewrite ?app_nil_r. reflexivity.
Qed.
Lemma plot_read n pre ss axes l m : flat_map (fun p => named m (children p)) (tsnodes (plotE n pre ss axes :: l))
  = (named m (tsnodes pre) ++ named m (tsnodes ss) ++ named m (tsnodes axes) ++ flat_map (fun p => named m (children p)) (tsnodes l))%list.
Proof.
  rewrite tsnodes_cons. unfold plotE. rewrite (tnodes_elem _ n) by reflexivity. cbn [flat_map app].
  rewrite named_children. cbn [tbody]. rewrite !tsnodes_named_app, <- !app_assoc. reflexivity.
Qed.
Lemma preT_none m l : forallb (fun p => negb (String.eqb (fst p) m)) l = true -> named m (tsnodes (preT l)) = [].
Proof.
  intros H. rewrite named_list.
  - induction l as [|[n v] l IH]; [reflexivity|]. cbn [forallb fst] in H. apply andb_true_iff in H. destruct H as [N H].
    unfold preT. cbn [flat_map filter app]. unfold called at 1. cbn [tname nlT]. unfold called at 1. cbn [tname fst].
    apply negb_true_iff in N. rewrite N. apply IH, H.
  - clear H. induction l as [|[n v] l IH]; [reflexivity|]. exact IH.
Qed.
(** *** Points *)
Definition pt_of (p : node) : string * string := (attr "idx" p, sconcat (map text_in (at_path ["c:v"] p))).
Lemma points_unfold n a body : points (tnode (TE n a body)) = map pt_of (named "c:pt" (tsnodes body)).
Proof. unfold points. now rewrite path_one, named_children. Qed.
Lemma pt_read a v : pt_of (tnode (TE "c:pt" [("idx", [Lit a])] [nlT; TE "c:v" [] [TT [v]]; nlT])) = (a, pval v).
Proof.
  unfold pt_of. f_equal.
  - unfold attr, tnode. cbn. apply sapp_nil_r.
  - unfold nlT. pread. rewrite text_leaf. unfold vals. cbn. now rewrite !sapp_nil_r.
Qed.
Lemma point_named k p : map pt_of (named "c:pt" (tsnodes (pointT k p))) = [(decn k, pval p)].
Proof. unfold pointT. rewrite named_list by reflexivity. cbn [filter called tname nlT String.eqb Ascii.eqb Bool.eqb map]. now rewrite pt_read. Qed.
Lemma valsT_points s : map pt_of (named "c:pt" (tsnodes (valsT s))) = map (fun p => (decn (fst p), shown (snd p))) (numbered 0 (values s)).
Proof. apply (push_named "c:pt" _ pt_of (fun p => (decn (fst p), shown (snd p)))). intros k x. apply point_named. Qed.
Lemma catsT_points c : map pt_of (named "c:pt" (tsnodes (catsT c))) = map (fun p => (decn (fst p), snd p)) (numbered 0 (categories c)).
Proof. apply (push_named "c:pt" _ pt_of (fun p => (decn (fst p), snd p))). intros k x. apply point_named. Qed.
Lemma valueT_points l : map pt_of (named "c:pt" (tsnodes (flat_map valueT l))) = map (fun v => ("0", shown v)) l.
Proof.
  induction l as [|v l IH]; [reflexivity|]. cbn [flat_map map]. rewrite tsnodes_named_app, map_app, IH.
  unfold valueT. rewrite named_list by reflexivity. cbn [filter called tname nlT String.eqb Ascii.eqb Bool.eqb map]. now rewrite pt_read.
Qed.
(** *** Series *)
Lemma named_consE m t l : elemT t = true -> named m (tsnodes (t :: l)) = ((if called m t then [tnode t] else []) ++ named m (tsnodes l))%list.
Proof.
  intros H. change (t :: l) with ([t] ++ l)%list. rewrite tsnodes_named_app. rewrite named_list by (cbn; now rewrite H).
  cbn [filter]. now destruct (called m t).
Qed.
(** The points of a cache whose points form a block. *)
Ltac cache := rewrite points_unfold; cbn [app]; repeat (first [rewrite named_consE by reflexivity|rewrite tsnodes_named_app]; cbn [called tname nlT String.eqb Ascii.eqb Bool.eqb app]);
  rewrite ?map_app; change (tsnodes []) with (@nil node); cbn [named filter map]; rewrite ?app_nil_r.
Ltac leaf := pread; rewrite ?text_leaf; reflexivity.
Lemma attr_val s n : attr "val" (tnode (TS n [("val", [Lit s])])) = s.
Proof. unfold attr, tnode. cbn. apply sapp_nil_r. Qed.
Ltac val_leaf := unfold ser_idx, ser_order, val_of; pread; rewrite attr_val; reflexivity.
Ltac name_leaf := unfold ser_names; rewrite map_app; pread; rewrite text_leaf; unfold vals; cbn; rewrite sapp_nil_r; reflexivity.
Lemma quad {A B C D} (a a' : A) (b b' : B) (c c' : C) (d d' : D) : a = a' -> b = b' -> c = c' -> d = d' -> (a, b, c, d) = (a', b', c', d').
Proof. intros -> -> -> ->. reflexivity. Qed.
Ltac ser_cache := unfold ser_points; pread; rewrite ?app_nil_r; cache; reflexivity.
Lemma serE_points idx s vs : ser_points (tnode (serE idx s vs)) = map pt_of (named "c:pt" (tsnodes vs)).
Proof. unfold serE. ser_cache. Qed.
Lemma serE_view idx s : read_series (tnode (serE idx s (flat_map valueT (values s)))) = ser_view idx s.
Proof.
  unfold read_series, ser_view. rewrite serE_points, valueT_points, map_map. unfold serE. apply quad; [val_leaf|val_leaf|name_leaf|].
  apply map_ext. reflexivity.
Qed.
Lemma scatE_points idx s xs vs : ser_points (tnode (scatE idx s xs vs)) = map pt_of (named "c:pt" (tsnodes vs)).
Proof. unfold scatE. ser_cache. Qed.
Lemma bubE_points idx s xs vs bs : ser_points (tnode (bubE idx s xs vs bs)) = map pt_of (named "c:pt" (tsnodes vs)).
Proof. unfold bubE. ser_cache. Qed.
Lemma pieE_points c s vs cs : ser_points (tnode (pieE c s vs cs)) = map pt_of (named "c:pt" (tsnodes vs)).
Proof. unfold pieE. ser_cache. Qed.
Lemma doughE_points c s vs cs : ser_points (tnode (doughE c s vs cs)) = map pt_of (named "c:pt" (tsnodes vs)).
Proof. unfold doughE. ser_cache. Qed.
Lemma numbered_snd {A B} (f : nat -> string) (g : A -> B) l k : map snd (map (fun p => (f (fst p), g (snd p))) (numbered k l)) = map g l.
Proof. revert k. induction l as [|x l IH]; intros k; [reflexivity|]. cbn [numbered map fst snd]. now rewrite IH. Qed.
Lemma scatE_view idx s xs : read_series (tnode (scatE idx s xs (valsT s))) = ser_view idx s.
Proof.
  unfold read_series, ser_view. rewrite scatE_points, valsT_points, numbered_snd. unfold scatE. apply quad; [val_leaf|val_leaf|name_leaf|reflexivity].
Qed.
Lemma bubE_view idx s xs bs : read_series (tnode (bubE idx s xs (valsT s) bs)) = ser_view idx s.
Proof.
  unfold read_series, ser_view. rewrite bubE_points, valsT_points, numbered_snd. unfold bubE. apply quad; [val_leaf|val_leaf|name_leaf|reflexivity].
Qed.
Lemma pieE_view c s cs : read_series (tnode (pieE c s (valsT s) cs)) = ser_view 0 s.
Proof.
  unfold read_series, ser_view. rewrite pieE_points, valsT_points, numbered_snd. unfold pieE. apply quad; [val_leaf|val_leaf|name_leaf|reflexivity].
Qed.
Lemma doughE_view c s cs : read_series (tnode (doughE c s (valsT s) cs)) = ser_view 0 s.
Proof.
  unfold read_series, ser_view. rewrite doughE_points, valsT_points, numbered_snd. unfold doughE. apply quad; [val_leaf|val_leaf|name_leaf|reflexivity].
Qed.
Ltac one_ser := rewrite named_list by reflexivity; cbn [filter called tname nlT String.eqb Ascii.eqb Bool.eqb map serE scatE bubE pieE doughE].
Lemma series_views l k (f : nat -> nat) : map read_series (named "c:ser" (tsnodes (pushT (fun i s => seriesT (f i) s) k l))) = map (fun p => ser_view (f (fst p)) (snd p)) (numbered k l).
Proof.
  apply (push_named "c:ser" _ read_series (fun p => ser_view (f (fst p)) (snd p))). intros i s. unfold seriesT.
  rewrite named_list by reflexivity. cbn [filter called tname nlT String.eqb Ascii.eqb Bool.eqb map]. cbn [fst snd]. now rewrite <- serE_view.
Qed.
Lemma scat_views l k : map read_series (named "c:ser" (tsnodes (pushT scatT k l))) = map (fun p => ser_view (fst p) (snd p)) (numbered k l).
Proof.
  apply (push_named "c:ser" _ read_series (fun p => ser_view (fst p) (snd p))). intros i s. unfold scatT.
  rewrite named_list by reflexivity. cbn [filter called tname nlT String.eqb Ascii.eqb Bool.eqb map]. cbn [fst snd]. now rewrite <- (scatE_view _ _ (xsT s)).
Qed.
Lemma bub_views l k : map read_series (named "c:ser" (tsnodes (pushT bubT k l))) = map (fun p => ser_view (fst p) (snd p)) (numbered k l).
Proof.
  apply (push_named "c:ser" _ read_series (fun p => ser_view (fst p) (snd p))). intros i s. unfold bubT.
  rewrite named_list by reflexivity. cbn [filter called tname nlT String.eqb Ascii.eqb Bool.eqb map]. cbn [fst snd]. now rewrite <- (bubE_view _ _ (xsT s) (absT s)).
Qed.
(** *** Categories *)
Definition cat_of (p : node) : list (string * string) :=
  flat_map points (at_path ["c:catAx"; "c:strRef"; "c:strCache"] p ++ at_path ["c:ser"; "c:cat"; "c:strRef"; "c:strCache"] p).
Lemma push_flat {A B} m (g : nat -> A -> list tpl) (h : node -> list B) :
  (forall k x, flat_map h (named m (tsnodes (g k x))) = []) -> forall l k, flat_map h (named m (tsnodes (pushT g k l))) = [].
Proof. intros H. induction l as [|x l IH]; intros k; [reflexivity|]. cbn [pushT]. rewrite tsnodes_named_app, flat_map_app, H, IH. reflexivity. Qed.
Lemma plot_cat n pre ss axes : tname (plotE n pre ss axes) = Some n -> named "c:catAx" (tsnodes pre) = [] -> named "c:ser" (tsnodes pre) = [] -> named "c:catAx" (tsnodes ss) = [] -> named "c:ser" (tsnodes axes) = [] ->
  cat_of (tnode (plotE n pre ss axes))
  = flat_map points (flat_map (at_path ["c:strRef"; "c:strCache"]) (named "c:catAx" (tsnodes axes))
                     ++ flat_map (at_path ["c:cat"; "c:strRef"; "c:strCache"]) (named "c:ser" (tsnodes ss))).
Proof.
  intros _ P1 P2 S A. unfold cat_of. rewrite (path_step "c:catAx"), (path_step "c:ser"), !named_children. unfold plotE. cbn [tbody].
  rewrite !tsnodes_named_app, P1, P2, S, A. cbn [app]. now rewrite app_nil_r.
Qed.
Lemma catE_points c p : flat_map points (flat_map (at_path ["c:strRef"; "c:strCache"]) [tnode (catE c p (catsT c))]) = cats_view c.
Proof.
  cbn [flat_map]. unfold catE. pread. rewrite ?app_nil_r. cache. apply catsT_points.
Qed.
Lemma axesT_cat c p1 p2 : named "c:catAx" (tsnodes (axesT c p1 p2)) = [tnode (catE c p1 (catsT c))].
Proof. unfold axesT. rewrite named_list by reflexivity. reflexivity. Qed.
Lemma axesT_ser c p1 p2 : named "c:ser" (tsnodes (axesT c p1 p2)) = [].
Proof. unfold axesT. rewrite named_list by reflexivity. reflexivity. Qed.
Lemma series_no_cat (f : nat -> nat) l k : flat_map (at_path ["c:cat"; "c:strRef"; "c:strCache"]) (named "c:ser" (tsnodes (pushT (fun i s => seriesT (f i) s) k l))) = [].
Proof. apply push_flat. intros i s. unfold seriesT. rewrite named_list by reflexivity. cbn [filter called tname nlT serE String.eqb Ascii.eqb Bool.eqb map flat_map]. pread. reflexivity. Qed.
Lemma series_no_ax (f : nat -> nat) l k : named "c:catAx" (tsnodes (pushT (fun i s => seriesT (f i) s) k l)) = [].
Proof. apply push_none. intros i s. unfold seriesT. rewrite named_list by reflexivity. reflexivity. Qed.
Lemma cat_plot c n pre (f : nat -> nat) l k p1 p2 : named "c:catAx" (tsnodes pre) = [] -> named "c:ser" (tsnodes pre) = [] ->
  cat_of (tnode (plotE n pre (pushT (fun i s => seriesT (f i) s) k l) (axesT c p1 p2))) = cats_view c.
Proof.
  intros P1 P2. rewrite plot_cat; auto using series_no_ax, axesT_ser. rewrite series_no_cat, app_nil_r, axesT_cat. apply catE_points.
Qed.
Lemma cat_one n pre ss axes l : flat_map cat_of (tsnodes (plotE n pre ss axes :: l)) = (cat_of (tnode (plotE n pre ss axes)) ++ flat_map cat_of (tsnodes l))%list.
Proof. rewrite tsnodes_cons. rewrite (tnodes_elem _ n) by reflexivity. reflexivity. Qed.
(** ** The whole part *)
Lemma numbered_shift {A B} (f : nat * A -> B) d l k : map (fun p => f (d + fst p, snd p)) (numbered k l) = map f (numbered (d + k) l).
Proof. revert k. induction l as [|x l IH]; intros k; [reflexivity|]. cbn [numbered map fst snd]. rewrite IH. now rewrite Nat.add_succ_r. Qed.
Lemma numbered_app {A} (a b : list A) k : numbered k (a ++ b) = (numbered k a ++ numbered (k + length a) b)%list.
Proof.
  revert k. induction a as [|x a IH]; intros k; cbn [numbered app length].
  - now rewrite Nat.add_0_r.
  - rewrite IH. now rewrite Nat.add_succ_r.
Qed.
Lemma combo_views c : (map read_series (named "c:ser" (tsnodes (combo_bars c))) = views 0 (firstn (Nat.max (length (sers c) / 2) 1) (sers c)))
  /\ (1 < length (sers c) -> map read_series (named "c:ser" (tsnodes (combo_lines c)))
       = views (length (firstn (Nat.max (length (sers c) / 2) 1) (sers c))) (skipn (Nat.max (length (sers c) / 2) 1) (sers c))).
Proof.
  split.
  - apply (series_views _ 0 (fun i => i)).
  - intros L. unfold combo_lines. rewrite (series_views _ 0 (fun i => length (sers c) / 2 + i)).
    etransitivity; [exact (numbered_shift (fun p => ser_view (fst p) (snd p)) (length (sers c) / 2) _ 0)|]. unfold views. f_equal. f_equal.
    assert (1 <= length (sers c) / 2 <= length (sers c)).
    { split; [apply Nat.div_le_lower_bound; lia|]. apply Nat.div_le_upper_bound; lia. }
    rewrite firstn_length. lia.
Qed.
Lemma doc_series c : series_nodes (tnode (docT c (plotsT c))) = flat_map (fun p => named "c:ser" (children p)) (tsnodes (plotsT c)).
Proof. apply (plots_read (fun p => named "c:ser" (children p))); reflexivity. Qed.
Lemma doc_cats c : category_points (tnode (docT c (plotsT c))) = flat_map cat_of (tsnodes (plotsT c)).
Proof. apply (plots_read cat_of); reflexivity. Qed.
Ltac pre0 := first [apply preT_none; reflexivity|reflexivity].
Lemma named_nil0 m : named m (tsnodes []) = [].
Proof. reflexivity. Qed.
Lemma flat_nil0 {B} (g : node -> list B) : flat_map g (tsnodes []) = [].
Proof. reflexivity. Qed.
Lemma vaxes_ser : named "c:ser" (tsnodes vaxesT) = [].
Proof. unfold vaxesT. rewrite named_list by reflexivity. reflexivity. Qed.
Lemma vaxes_cat : named "c:catAx" (tsnodes vaxesT) = [].
Proof. unfold vaxesT. rewrite named_list by reflexivity. reflexivity. Qed.
Ltac pone := rewrite plot_read, ?axesT_ser, ?vaxes_ser, ?preT_none by reflexivity; rewrite ?named_nil0, ?flat_nil0, ?app_nil_r; cbn [app].
Lemma plots_series c : map read_series (flat_map (fun p => named "c:ser" (children p)) (tsnodes (plotsT c))) = views 0 (drawn c).
Proof.
  unfold plotsT, drawn. destruct (ctype c) eqn:T; cbn [first_only].
  all: try (pone; apply (series_views _ 0 (fun i => i))).
  all: try (pone; apply scat_views).
  all: try (pone; apply bub_views).
  - pone. unfold firstT. destruct (sers c) as [|s l]; [reflexivity|]. rewrite named_list by reflexivity. cbn [filter called tname nlT String.eqb Ascii.eqb Bool.eqb map].
    unfold views. cbn [firstn numbered map fst snd]. now rewrite <- (pieE_view c s (catsT c)).
  - pone. unfold firstT. destruct (sers c) as [|s l]; [reflexivity|]. rewrite named_list by reflexivity. cbn [filter called tname nlT String.eqb Ascii.eqb Bool.eqb map].
    unfold views. cbn [firstn numbered map fst snd]. now rewrite <- (doughE_view c s (catsT c)).
  - destruct (combo_views c) as [B L]. destruct (Nat.ltb_spec 1 (length (sers c))) as [H|H].
    + rewrite plot_read, axesT_ser, preT_none by reflexivity. pone. rewrite map_app, B, (L H). unfold views. rewrite <- map_app. rewrite <- (firstn_skipn (Nat.max (length (sers c) / 2) 1) (sers c)) at 7. now rewrite numbered_app.
    + pone. rewrite B. f_equal. assert (length (sers c) / 2 = 0) as -> by (apply Nat.div_small; lia).
      apply firstn_all2. cbn. lia.
Qed.
Lemma pieE_cats c s vs : flat_map points (at_path ["c:cat"; "c:strRef"; "c:strCache"] (tnode (pieE c s vs (catsT c)))) = cats_view c.
Proof. unfold pieE. pread. rewrite ?app_nil_r. cache. apply catsT_points. Qed.
Lemma doughE_cats c s vs : flat_map points (at_path ["c:cat"; "c:strRef"; "c:strCache"] (tnode (doughE c s vs (catsT c)))) = cats_view c.
Proof. unfold doughE. pread. rewrite ?app_nil_r. cache. apply catsT_points. Qed.
Lemma plots_cats c : flat_map cat_of (tsnodes (plotsT c)) = if has_categories c then cats_view c else [].
Proof.
  assert (C : forall n l pre (f : nat -> nat) k p1 p2, named "c:catAx" (tsnodes pre) = [] -> named "c:ser" (tsnodes pre) = [] ->
    flat_map cat_of (tsnodes [plotE n pre (pushT (fun i s => seriesT (f i) s) k l) (axesT c p1 p2)]) = cats_view c).
  { intros. rewrite cat_one, cat_plot by assumption. apply app_nil_r. }
  unfold plotsT, has_categories. destruct (ctype c) eqn:T.
  1-7,10-12,17-20: apply (C _ _ _ (fun i => i) 0); pre0.
  3-6: (rewrite cat_one, plot_cat by first [reflexivity|apply vaxes_ser|apply preT_none; reflexivity|
              apply push_none; intros i s; unfold scatT, bubT; rewrite named_list by reflexivity; reflexivity];
            rewrite vaxes_cat; unfold allT; rewrite push_flat; [reflexivity|];
            intros i s; unfold scatT, bubT; rewrite named_list by reflexivity; cbn [filter called tname nlT scatE bubE String.eqb Ascii.eqb Bool.eqb map flat_map]; pread; reflexivity).
  - unfold firstT. destruct (sers c) as [|s l]; [reflexivity|]. rewrite cat_one, plot_cat by pre0. rewrite named_nil0, flat_nil0, app_nil_r. cbn [flat_map app length Nat.eqb negb].
    rewrite named_list by reflexivity. cbn [filter called tname nlT String.eqb Ascii.eqb Bool.eqb map]. rewrite <- (pieE_cats c s (valsT s)). rewrite <- (app_nil_r (at_path _ (tnode (pieE c s (valsT s) (catsT c))))). reflexivity.
  - unfold firstT. destruct (sers c) as [|s l]; [reflexivity|]. rewrite cat_one, plot_cat by pre0. rewrite named_nil0, flat_nil0, app_nil_r. cbn [flat_map app length Nat.eqb negb].
    rewrite named_list by reflexivity. cbn [filter called tname nlT String.eqb Ascii.eqb Bool.eqb map]. rewrite <- (doughE_cats c s (valsT s)). rewrite <- (app_nil_r (at_path _ (tnode (doughE c s (valsT s) (catsT c))))). reflexivity.
  - rewrite cat_one. unfold combo_bars. rewrite (cat_plot c _ _ (fun i => i)) by pre0.
    destruct (Nat.ltb 1 (length (sers c))); [|apply app_nil_r]. rewrite cat_one, plot_cat by first [reflexivity|apply preT_none; reflexivity|apply (series_no_ax (fun i => length (sers c) / 2 + i))].
    rewrite named_nil0, flat_nil0. unfold combo_lines. rewrite (series_no_cat (fun i => length (sers c) / 2 + i)). cbn [flat_map app]. apply app_nil_r.
Qed.
Lemma doc_titles c plots : chart_titles (tnode (docT c plots)) = [title c].
Proof. unfold chart_titles, docT. pread. rewrite text_leaf. unfold vals. cbn. now rewrite sapp_nil_r. Qed.
Lemma chart_read c : chart_ok c -> xml_read (chart_part_xml c) = Some (tnode (docT c (plotsT c))).
Proof. intros H. rewrite chart_part_str. apply (tpl_read nl); [reflexivity|reflexivity|]. apply (docT_tok c _ H), plotsT_toks, H. Qed.

Theorem chart_shows c : chart_ok c -> exists x, xml_read (chart_part_xml c) = Some x /\ chart_titles x = [title c]
  /\ map read_series (series_nodes x) = views 0 (drawn c)
  /\ category_points x = (if has_categories c then cats_view c else []).
Proof.
  intros H. exists (tnode (docT c (plotsT c))). split; [apply chart_read, H|]. split; [apply doc_titles|]. split.
  - rewrite doc_series. apply plots_series.
  - rewrite doc_cats. apply plots_cats.
Qed.
(** Which plot draws what, in a combo chart. *)
Lemma series_in_doc m c plots : m <> "c:layout" -> forallb elemT plots = true ->
  series_in m (tnode (docT c plots)) = flat_map (fun t => named "c:ser" (tsnodes (tbody t))) (filter (called m) plots).
Proof.
  intros M E. unfold series_in, docT. rewrite path_list by reflexivity.
  cbn [tbody filter called tname String.eqb Ascii.eqb Bool.eqb map flat_map]. rewrite app_nil_r, path_list by reflexivity.
  cbn [tbody filter called tname String.eqb Ascii.eqb Bool.eqb map flat_map]. rewrite app_nil_r, path_step, named_children. cbn [tbody app].
  rewrite !named_consE by reflexivity. cbn [called tname nlT app]. destruct (String.eqb_spec "c:layout" m) as [C|_]; [congruence|]. cbn [app].
  rewrite ?app_nil_r, named_list by exact E.
  induction (filter (called m) plots) as [|t l IH]; [reflexivity|]. cbn [map flat_map]. rewrite IH, path_one, named_children. reflexivity.
Qed.
Theorem combo_split c : chart_ok c -> ctype c = Combo -> exists x, xml_read (chart_part_xml c) = Some x
  /\ (map read_series (series_in "c:barChart" x) ++ map read_series (series_in "c:lineChart" x))%list = views 0 (sers c)
  /\ length (series_in "c:barChart" x) = Nat.min (length (sers c)) (Nat.max 1 (length (sers c) / 2)).
Proof.
  intros H T. exists (tnode (docT c (plotsT c))). split; [apply chart_read, H|].
  assert (B : series_in "c:barChart" (tnode (docT c (plotsT c))) = named "c:ser" (tsnodes (combo_bars c))).
  { unfold plotsT. rewrite T. rewrite series_in_doc; [|discriminate|now destruct (Nat.ltb 1 (length (sers c)))].
    destruct (Nat.ltb 1 (length (sers c))); cbn [filter called tname plotE String.eqb Ascii.eqb Bool.eqb flat_map tbody];
    rewrite app_nil_r, !tsnodes_named_app, axesT_ser, preT_none by reflexivity; apply app_nil_r. }
  assert (L : series_in "c:lineChart" (tnode (docT c (plotsT c))) = if Nat.ltb 1 (length (sers c)) then named "c:ser" (tsnodes (combo_lines c)) else []).
  { unfold plotsT. rewrite T. rewrite series_in_doc; [|discriminate|now destruct (Nat.ltb 1 (length (sers c)))].
    destruct (Nat.ltb 1 (length (sers c))); cbn [filter called tname plotE String.eqb Ascii.eqb Bool.eqb flat_map tbody]; [|reflexivity].
    rewrite app_nil_r, !tsnodes_named_app, preT_none by reflexivity. apply app_nil_r. }
  rewrite B, L. destruct (combo_views c) as [V W]. split.
  - pose proof (plots_series c) as P. unfold plotsT, drawn in P. rewrite T in P. cbn [first_only] in P. rewrite <- P. rewrite <- map_app. f_equal.
    rewrite plot_read, axesT_ser, preT_none by reflexivity. cbn [app]. f_equal.
    destruct (Nat.ltb 1 (length (sers c))); [|reflexivity]. pone. reflexivity.
  - rewrite <- (map_length read_series), V. unfold views. rewrite map_length.
    assert (N : forall l k, length (numbered k l) = length (l : list series)) by (induction l; intros; cbn; [reflexivity|now rewrite IHl]).
    rewrite N, firstn_length. lia.
Qed.
Lemma numbered_fst {A} (l : list A) k : map fst (numbered k l) = seq k (length l).
Proof. revert k. induction l as [|x l IH]; intros k; [reflexivity|]. cbn [numbered map length seq fst]. now rewrite IH. Qed.
Theorem chart_indexes c : chart_ok c -> exists x, xml_read (chart_part_xml c) = Some x
  /\ flat_map ser_idx (series_nodes x) = map decn (seq 0 (length (drawn c))) /\ NoDup (flat_map ser_idx (series_nodes x)).
Proof.
  intros H. destruct (chart_shows c H) as (x & R & _ & S & _). exists x. split; [exact R|].
  assert (E : flat_map ser_idx (series_nodes x) = map decn (seq 0 (length (drawn c)))).
  { apply (f_equal (map (fun v => fst (fst (fst v))))) in S. rewrite map_map in S. unfold read_series, views, ser_view in S. cbn [fst] in S. rewrite map_map in S. cbn [fst] in S.
    rewrite flat_map_concat_map, <- numbered_fst. etransitivity; [exact (f_equal (@concat string) S)|]. clear S.
    induction (numbered 0 (drawn c)) as [|p l IH]; [reflexivity|]. cbn [map concat app]. now rewrite IH. }
  split; [exact E|]. rewrite E. apply Injective_map_NoDup; [|apply seq_NoDup]. intros a b. apply decn_inj.
Qed.
