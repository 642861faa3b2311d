From Coq Require Import String Ascii List Bool Arith NArith Lia Sorted Permutation.
From Verif Require Import Str StrRefl Num EscapeModel EscapeProofs XmlSpec XmlProofs XmlTpl OpcSpec GenProofs TplRead XmlPath PathRead LookSpec TableModel TableSpec TableProofs TableLook GradModel GradSpec.
Import ListNotations.
Open Scope nat_scope.
Open Scope string_scope.

(** ** The fill as a template *)
Definition clrT (s : stop) : tpl :=
  match st_clear s with Some a => TE "a:srgbClr" [("val", [Lit (st_color s)])] [TS "a:alpha" [("val", [Lit (dec (wsub u32_max 100000 a))])]] | None => TS "a:srgbClr" [("val", [Lit (st_color s)])] end.
Definition stopT (s : stop) : tpl := TE "a:gs" [("pos", [Lit (dec (st_pos s))])] [clrT s].
Definition runT (g : grad) : tpl :=
  match g_type g with
  | GLinear => TS "a:lin" [("ang", [Lit (dec (grad_angle (g_dir g)))]); ("scaled", [Lit "1"])]
  | _ => TE "a:path" [("path", [Lit (type_value (g_type g))])] [TS "a:fillToRect" [("l", [Lit "50000"]); ("t", [Lit "50000"]); ("r", [Lit "50000"]); ("b", [Lit "50000"])]]
  end.
Definition gradB (g : grad) : list tpl := [TE "a:gsLst" [] (map stopT (g_stops g)); runT g].
Definition gradA (g : grad) : list (string * list piece) := [("rotWithShape", [Lit (if g_rotate g then "1" else "0")])].
Lemma stop_str s : stop_xml s = tstr (stopT s).
Proof. unfold stop_xml, stopT, clrT. destruct (st_clear s); tstr_eq. Qed.
Lemma run_str g : (match g_type g with
      | GLinear => ("<a:lin ang=""" ++ dec (grad_angle (g_dir g)) ++ """ scaled=""1""/>")
      | _ => ("<a:path path=""" ++ type_value (g_type g) ++ """><a:fillToRect l=""50000"" t=""50000"" r=""50000"" b=""50000""/></a:path>")
      end) = tstr (runT g).
Proof. unfold runT. destruct (g_type g); tstr_eq. Qed.
Lemma grad_str g : grad_xml g = tstr (TE "a:gradFill" (gradA g) (gradB g)).
Proof.
  unfold grad_xml. rewrite run_str. replace (sconcat (map stop_xml (g_stops g))) with (tstrs (map stopT (g_stops g))).
  2:{ unfold tstrs. rewrite map_map. f_equal. apply map_ext. intros s. symmetry. apply stop_str. }
  unfold gradA, gradB. cbn [tstr map]. fold (tstrs (map stopT (g_stops g))). generalize (tstrs (map stopT (g_stops g))) (tstr (runT g)). intros x y.
  generalize (if g_rotate g then "1" else "0"). intros r. tstr_eq.
Qed.
Lemma grad_toks g : Forall (fun s => sforall plain_val (st_color s) = true) (g_stops g) -> tok (TE "a:gradFill" (gradA g) (gradB g)).
Proof.
  intros H. assert (S : toks (map stopT (g_stops g))).
  { apply toks_map. intros s Hs. rewrite Forall_forall in H. specialize (H s Hs). unfold stopT, clrT. destruct (st_clear s); twf. }
  assert (R : tok (runT g)) by (unfold runT; destruct (g_type g); twf).
  assert (A : tattrs_ok (gradA g) = true) by (unfold gradA; destruct (g_rotate g); reflexivity).
  unfold gradB. twf.
Qed.
(** ** What was made *)
Lemma fold_stops l : forall g, fold_left (fun g a => add_stop (made a) g) l g = Grad (g_type g) (g_dir g) (g_stops g ++ map made l) (g_rotate g).
Proof.
  induction l as [|a l IH]; intros g; [cbn; rewrite app_nil_r; now destruct g|]. cbn [fold_left map]. rewrite IH. unfold add_stop. cbn [g_type g_dir g_stops g_rotate]. now rewrite <- app_assoc.
Qed.
Lemma gradient_eq k d b l : gradient_of k d b l = Grad k d (map made l) b.
Proof. unfold gradient_of. rewrite fold_stops. reflexivity. Qed.
Lemma made_color a : st_color (made a) = clean (snd (fst a)).
Proof. destruct a as [[p c] [t|]]; reflexivity. Qed.
Lemma made_seen a : color_ok (snd (fst a)) = true ->
  (attr "pos" (tnode (stopT (made a))), map (fun c => (attr "val" c, map (attr "val") (at_path ["a:alpha"] c))) (at_path ["a:srgbClr"] (tnode (stopT (made a))))) = shown a.
Proof.
  destruct a as [[p c] t]. cbn [fst snd]. intros H. unfold shown. f_equal; [destruct t; apply vals_lit|].
  assert (E : at_path ["a:srgbClr"] (tnode (stopT (made (p, c, t)))) = [tnode (clrT (made (p, c, t)))]).
  { unfold stopT. rewrite path_one, named_children. cbn [tbody]. unfold clrT. destruct (st_clear (made (p, c, t))); reflexivity. }
  rewrite E. cbn [map]. destruct t as [t|]; unfold clrT; cbn [made with_clear stop_new st_clear st_color st_pos].
  - f_equal. f_equal.
    + unfold attr, attr_opt, tnode, attrs_val. cbn [map fst snd find String.eqb Ascii.eqb Bool.eqb option_map]. now rewrite vals_lit, clean_value.
    + pread. unfold attr, attr_opt, tnode, attrs_val. cbn [map fst snd find String.eqb Ascii.eqb Bool.eqb option_map]. rewrite vals_lit. f_equal. f_equal.
      assert (N.min t 100 <= 100)%N by apply N.le_min_r. unfold wmul, wsub, u32_max in *. rewrite (N.mod_small (N.min t 100 * 1000)) by lia.
      set (z := (N.min t 100 * 1000)%N). replace (100000 + (4294967295 + 1) - z)%N with ((100000 - z) + 1 * 4294967296)%N by lia.
      change (4294967295 + 1)%N with 4294967296%N. rewrite N.mod_add by lia. rewrite N.mod_small by lia. unfold z. lia.
  - f_equal. f_equal. unfold attr, attr_opt, tnode, attrs_val. cbn [map fst snd find String.eqb Ascii.eqb Bool.eqb option_map]. now rewrite vals_lit, clean_value.
Qed.
Lemma angle_eq d : (degrees d * 60000 <= u32_max)%N -> grad_angle d = (degrees d * 60000)%N.
Proof. destruct d as [| | | |n]; try reflexivity. intros H. change (n * 60000 <= u32_max)%N in H. unfold grad_angle, wmul. apply N.mod_small. apply (N.le_lt_trans _ _ _ H). reflexivity. Qed.
Theorem gradient_shown k d turns l : (degrees d * 60000 <= u32_max)%N -> Forall (fun a => color_ok (snd (fst a)) = true) l ->
  exists x, xml_read (grad_xml (gradient_of k d turns l)) = Some x /\ tag x = "a:gradFill"
  /\ attr_opt "rotWithShape" x = Some (if turns then "1" else "0") /\ seen x = map shown l /\ runs x = to_run k d.
Proof.
  intros D F. rewrite gradient_eq. set (g := Grad k d (map made l) turns). exists (tnode (TE "a:gradFill" (gradA g) (gradB g))). split.
  { rewrite grad_str. apply tpl_read_node, grad_toks. cbn [g_stops g]. apply Forall_forall. intros s Hs. apply in_map_iff in Hs. destruct Hs as (a & <- & Ha).
    rewrite made_color. apply clean_plain. rewrite Forall_forall in F. now apply F. }
  split; [reflexivity|]. split; [destruct turns; reflexivity|]. split.
  - unfold seen, gradB. cbn [g_stops g]. rewrite (path_named _ _ _ [tnode (TE "a:gsLst" [] (map stopT (map made l)))]).
    2:{ cbn [tbody]. unfold runT. cbn [g_type g]. destruct k; rewrite named_list by reflexivity; reflexivity. }
    cbn [flat_map]. rewrite app_nil_r, path_one, named_children. cbn [tbody]. rewrite map_map, (named_all "a:gs" (fun a => stopT (made a))) by reflexivity. rewrite map_map.
    apply map_ext_in. intros a Ha. apply made_seen. rewrite Forall_forall in F. now apply F.
  - unfold runs, gradB, to_run. cbn [g_stops g]. rewrite !path_one, !named_children. cbn [tbody]. unfold runT. cbn [g_type g_dir g].
    destruct k; rewrite !named_list by reflexivity; cbn [filter called tname String.eqb Ascii.eqb Bool.eqb map app]; unfold attr, attr_opt, tnode, attrs_val; cbn [map fst snd find String.eqb Ascii.eqb Bool.eqb option_map];
    rewrite vals_lit; [now rewrite angle_eq|reflexivity..].
Qed.
(** ** Sorting *)
Lemma put_perm s l : Permutation (put s l) (s :: l).
Proof. induction l as [|t l IH]; [reflexivity|]. cbn [put]. destruct (_ <? _)%N; [reflexivity|]. rewrite IH. apply perm_swap. Qed.
Lemma put_sorted s l : StronglySorted before l -> StronglySorted before (put s l).
Proof.
  induction 1 as [|t l H IH F]; [repeat constructor|]. cbn [put]. destruct (N.ltb_spec (st_pos s) (st_pos t)) as [L|L].
  - constructor; [now constructor|]. constructor; [unfold before; lia|]. eapply Forall_impl; [|exact F]. unfold before. intros; lia.
  - constructor; [exact IH|]. eapply Permutation_Forall; [symmetry; apply put_perm|]. now constructor.
Qed.
Lemma put_place s l p : StronglySorted before l -> at_place p (put s l) = (at_place p l ++ at_place p [s])%list.
Proof.
  induction 1 as [|t l H IH F]; [reflexivity|]. cbn [put]. destruct (N.ltb_spec (st_pos s) (st_pos t)) as [L|L].
  - unfold at_place at 1 3. cbn [filter]. destruct (N.eqb_spec (st_pos s) p) as [E|E]; [|now rewrite app_nil_r].
    assert (Z : at_place p (t :: l) = []).
    { unfold at_place. assert (G : Forall (fun u => (p < st_pos u)%N) (t :: l)) by (constructor; [lia|]; eapply Forall_impl; [|exact F]; unfold before; intros; lia).
      revert G. clear. generalize (t :: l). clear. intros q G. induction G as [|u q A _ IH]; [reflexivity|]. cbn [filter]. destruct (N.eqb_spec (st_pos u) p); [lia|exact IH]. }
    fold (at_place p l). change (if N.eqb (st_pos t) p then t :: at_place p l else at_place p l) with (at_place p (t :: l)). now rewrite Z.
  - unfold at_place at 1 2. cbn [filter]. fold (at_place p (put s l)) (at_place p l). rewrite IH. now destruct (N.eqb (st_pos t) p).
Qed.
Lemma sort_fold l : forall acc, StronglySorted before acc ->
  let r := fold_left (fun l s => put s l) l acc in Permutation r (acc ++ l) /\ StronglySorted before r /\ forall p, at_place p r = (at_place p acc ++ at_place p l)%list.
Proof.
  induction l as [|s l IH]; intros acc H; cbn [fold_left]; cbv zeta.
  - rewrite app_nil_r. split; [reflexivity|]. split; [exact H|]. intros p. cbn. now rewrite app_nil_r.
  - destruct (IH (put s acc) (put_sorted s acc H)) as (A & B & C). split; [|split; [exact B|]].
    + rewrite A, put_perm. cbn [app]. apply Permutation_middle.
    + intros p. rewrite C, put_place by exact H. rewrite <- app_assoc. f_equal. unfold at_place. cbn [filter app]. now destruct (N.eqb (st_pos s) p).
Qed.
Theorem sorted_stops g : g_type (grad_sorted g) = g_type g /\ g_dir (grad_sorted g) = g_dir g /\ g_rotate (grad_sorted g) = g_rotate g
  /\ Permutation (g_stops (grad_sorted g)) (g_stops g) /\ StronglySorted before (g_stops (grad_sorted g))
  /\ forall p, at_place p (g_stops (grad_sorted g)) = at_place p (g_stops g).
Proof.
  destruct (sort_fold (g_stops g) [] (SSorted_nil _)) as (A & B & C). repeat split; assumption.
Qed.
Fixpoint ordered (l : list N) : bool := match l with a :: ((b :: _) as r) => (a <=? b)%N && ordered r | _ => true end.
Lemma ordered_sorted l : ordered (map st_pos l) = true -> StronglySorted before l.
Proof.
  intros H. apply Sorted_StronglySorted; [intros a b c; unfold before; lia|]. induction l as [|a l IH]; [constructor|]. cbn [map] in H. destruct l as [|b l]; [repeat constructor|].
  cbn [map ordered] in H. apply andb_true_iff in H. destruct H as [A B]. constructor; [now apply IH|]. constructor. now apply N.leb_le.
Qed.
Lemma presets_ordered g : In g presets ->
  StronglySorted before (g_stops g) /\ hd_error (map st_pos (g_stops g)) = Some 0%N /\ last (map st_pos (g_stops g)) 0%N = 100000%N.
Proof.
  intros H. cut (ordered (map st_pos (g_stops g)) = true /\ hd_error (map st_pos (g_stops g)) = Some 0%N /\ last (map st_pos (g_stops g)) 0%N = 100000%N).
  { intros (A & B). split; [now apply ordered_sorted|exact B]. }
  unfold presets in H. repeat (destruct H as [<-|H]; [repeat split; reflexivity|]). destruct H.
Qed.
