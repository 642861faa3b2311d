From Coq Require Import String Ascii List Bool Arith NArith Lia.
From Verif Require Import Str StrRefl EscapeModel EscapeProofs XmlSpec XmlProofs XmlTpl OpcSpec GenProofs TplRead XmlPath PathRead ColorModel TableModel TableSpec TableProofs LookSpec TableLook ChartTpl ShapeProofs SlideProofs SlideRead InlineModel InlineSpec.
Import ListNotations.
Open Scope nat_scope.
Open Scope string_scope.

Fixpoint chars (s : string) : list ascii := match s with "" => [] | String c r => c :: chars r end.
Definition seg_look (g : segment) : look := if sg_code g then InCode else Text (sg_bold g) (sg_italic g).
Definition seg_view (g : segment) : list (ascii * look) := map (fun c => (c, seg_look g)) (chars (sg_text g)).
Definition view (l : list segment) : list (ascii * look) := flat_map seg_view l.
Lemma chars_app a b : chars (a ++ b) = (chars a ++ chars b)%list.
Proof. induction a; cbn [append chars app]; congruence. Qed.
Lemma view_flush cur b i l : view (flush cur b i l) = (map (fun c => (c, Text b i)) (chars cur) ++ view l)%list.
Proof. unfold flush. destruct (String.eqb_spec cur "") as [->|]; reflexivity. Qed.
Lemma count_app (f : token -> bool) a t : length (filter f (a ++ [t])) = length (filter f a) + (if f t then 1 else 0).
Proof. rewrite filter_app, app_length. cbn [filter]. destruct (f t); reflexivity. Qed.
Lemma odd_S n : Nat.odd (n + 1) = negb (Nat.odd n).
Proof. rewrite Nat.add_1_r. rewrite Nat.odd_succ. now rewrite <- Nat.negb_odd. Qed.
Definition curlook (b i code : bool) : look := if code then InCode else Text b i.

Lemma string_len_ind (P : string -> Prop) : (forall s, (forall t, String.length t < String.length s -> P t) -> P s) -> forall s, P s.
Proof. intros H. assert (G : forall n s, String.length s < n -> P s); [|intros s; apply (G (S (String.length s))); lia]. induction n; intros s L; [lia|]. apply H. intros t Ht. apply IHn. lia. Qed.

Lemma scan_view s : forall cur b i code before, b = Nat.odd (doubles before) -> i = Nat.odd (singles before) -> code = Nat.odd (ticks before) ->
  view (scan s cur b i code) = (map (fun c => (c, curlook b i code)) (chars cur) ++ looks before (tokens code s))%list.
Proof.
  induction s as [s IH] using string_len_ind. intros cur b i code before B I C. destruct s as [|c s].
  - cbn [scan tokens looks]. destruct (String.eqb_spec cur "") as [->|]; [reflexivity|]. unfold view. cbn [flat_map]. rewrite !app_nil_r. unfold seg_view, seg_look. cbn [sg_text sg_code sg_bold sg_italic]. now destruct code.
  - cbn [scan tokens]. destruct (Ascii.eqb c "`").
    + assert (B' : b = Nat.odd (doubles (before ++ [Tick]))) by (unfold doubles; rewrite count_app, Nat.add_0_r; exact B).
      assert (I' : i = Nat.odd (singles (before ++ [Tick]))) by (unfold singles; rewrite count_app, Nat.add_0_r; exact I).
      assert (C' : negb code = Nat.odd (ticks (before ++ [Tick]))) by (unfold ticks; rewrite count_app, odd_S, C; reflexivity).
      destruct code; cbn [negb] in *.
      * unfold view. cbn [flat_map]. fold (view (scan s "" b i false)). rewrite (IH s) with (before := (before ++ [Tick])%list) by (auto; cbn; lia).
        cbn [chars map app looks]. reflexivity.
      * rewrite view_flush. rewrite (IH s) with (before := (before ++ [Tick])%list) by (auto; cbn; lia). cbn [chars map app looks]. reflexivity.
    + change (Ascii.eqb c "*" || Ascii.eqb c "_") with (star c). destruct (star c && negb code) eqn:ST.
      * apply andb_true_iff in ST. destruct ST as [_ ST]. apply negb_true_iff in ST. subst code. rewrite ST.
        assert (SG : view (flush cur b i (scan s "" b (negb i) false)) = (map (fun c => (c, curlook b i false)) (chars cur) ++ looks (before ++ [Single c]) (tokens false s))%list).
        { rewrite view_flush. rewrite (IH s) with (before := (before ++ [Single c])%list); [reflexivity|cbn; lia|..].
          - unfold doubles. rewrite count_app, Nat.add_0_r. exact B.
          - unfold singles. rewrite count_app, odd_S, I. reflexivity.
          - unfold ticks. rewrite count_app, Nat.add_0_r. symmetry. exact ST. }
        destruct s as [|d s]; [exact SG|]. rewrite (Ascii.eqb_sym d c). destruct (Ascii.eqb c d); [|exact SG].
        rewrite view_flush. rewrite (IH s) with (before := (before ++ [Double c])%list); [reflexivity|cbn; lia|..].
        -- unfold doubles. rewrite count_app, odd_S, B. reflexivity.
        -- unfold singles. rewrite count_app, Nat.add_0_r. exact I.
        -- unfold ticks. rewrite count_app, Nat.add_0_r. symmetry. exact ST.
      * rewrite (IH s) with (before := (before ++ [Chr c])%list); [|cbn; lia|..].
        -- rewrite chars_app, map_app, <- app_assoc. cbn [chars s1 map app looks]. f_equal. f_equal. f_equal. unfold look_after, curlook. now rewrite <- B, <- I, <- C.
        -- unfold doubles. rewrite count_app, Nat.add_0_r. exact B.
        -- unfold singles. rewrite count_app, Nat.add_0_r. exact I.
        -- unfold ticks. rewrite count_app, Nat.add_0_r. exact C.
Qed.
Lemma parse_view s : looks [] (tokens false s) <> [] -> view (parse_inline s) = looks [] (tokens false s).
Proof.
  intros H. pose proof (scan_view s "" false false false [] eq_refl eq_refl eq_refl) as V. cbn [chars map app] in V. unfold parse_inline.
  destruct (scan s "" false false false); [elim H; symmetry; exact V|exact V].
Qed.
Lemma looks_nil l : forall before, (exists c, In (Chr c) l) -> looks before l <> [].
Proof.
  induction l as [|t l IH]; intros before (c & H); [contradiction|]. destruct t; cbn [looks]; try discriminate; (apply IH; exists c; destruct H as [H|H]; [discriminate|exact H]).
Qed.
Lemma tokens_spell s : forall code, sconcat (map spell (tokens code s)) = s.
Proof.
  induction s as [s IH] using string_len_ind. intros code. destruct s as [|c s]; [reflexivity|]. cbn [tokens].
  destruct (Ascii.eqb_spec c "`") as [->|]; [cbn [map sconcat fold_right spell append]; f_equal; apply (IH s); cbn; lia|].
  assert (SG : sconcat (map spell (Single c :: tokens code s)) = String c s) by (cbn [map sconcat fold_right spell append s1]; f_equal; apply (IH s); cbn; lia).
  destruct (star c && negb code).
  - destruct s as [|d s]; [reflexivity|]. destruct (Ascii.eqb_spec c d) as [<-|]; [|exact SG].
    cbn [map sconcat fold_right spell append s1]. f_equal. f_equal. apply (IH s). cbn. lia.
  - exact SG.
Qed.
(** The texts of the runs, in terms of characters only. *)
Lemma of_chars l : chars (sconcat (map sg_text l)) = map fst (view l).
Proof.
  induction l as [|g l IH]; [reflexivity|]. cbn [map sconcat fold_right]. fold (sconcat (map sg_text l)). rewrite chars_app, IH. unfold view. cbn [flat_map]. rewrite map_app. f_equal.
  unfold seg_view. rewrite map_map. symmetry. apply map_id.
Qed.
Lemma looks_chars l : forall before, map fst (looks before l) = chars (chars_of l).
Proof.
  induction l as [|t l IH]; intros before; [reflexivity|]. unfold chars_of. cbn [map sconcat fold_right]. fold (sconcat (map (fun t => match t with Chr c => s1 c | _ => "" end) l)).
  fold (chars_of l). destruct t; cbn [looks append s1 map fst chars]; rewrite IH; reflexivity.
Qed.
Lemma chars_inj a b : chars a = chars b -> a = b.
Proof. revert b. induction a as [|c a IH]; intros [|d b] H; try discriminate; [reflexivity|]. injection H as -> H. f_equal. now apply IH. Qed.
Lemma parse_text s : (exists c, In (Chr c) (tokens false s)) -> sconcat (map sg_text (parse_inline s)) = chars_of (tokens false s).
Proof. intros H. apply chars_inj. rewrite of_chars, parse_view by (now apply looks_nil). apply looks_chars. Qed.

Definition marker (c : ascii) : bool := Ascii.eqb c "`" || star c.
Lemma scan_plain s : forall cur b i code t, sforall (fun c => negb (marker c)) s = true -> scan (s ++ t) cur b i code = scan t (cur ++ s) b i code.
Proof.
  induction s as [|c s IH]; intros cur b i code t H; [cbn [append]; now rewrite sapp_nil_r|]. cbn [sforall] in H. rewrite andb_true_iff, negb_true_iff in H. destruct H as [M H].
  unfold marker in M. rewrite orb_false_iff in M. destruct M as [M1 M2]. cbn [append scan]. rewrite M1. change (Ascii.eqb c "*" || Ascii.eqb c "_") with (star c). rewrite M2. cbn [andb].
  rewrite IH by exact H. now rewrite sapp_assoc.
Qed.
Lemma scan_code s : forall cur b i t, sforall (fun c => negb (Ascii.eqb c "`")) s = true -> scan (s ++ t) cur b i true = scan t (cur ++ s) b i true.
Proof.
  induction s as [|c s IH]; intros cur b i t H; [cbn [append]; now rewrite sapp_nil_r|]. cbn [sforall] in H. rewrite andb_true_iff, negb_true_iff in H. destruct H as [M H].
  cbn [append scan]. rewrite M, andb_false_r. rewrite IH by exact H. now rewrite sapp_assoc.
Qed.
Lemma plain_one s : sforall (fun c => negb (marker c)) s = true -> parse_inline s = [Segment s false false false].
Proof.
  intros H. unfold parse_inline. rewrite <- (sapp_nil_r s) at 1. rewrite scan_plain by exact H. cbn [append scan]. destruct (String.eqb_spec s "") as [->|]; reflexivity.
Qed.
Lemma code_span a u b : a <> "" -> b <> "" -> sforall (fun c => negb (marker c)) a = true -> sforall (fun c => negb (marker c)) b = true -> sforall (fun c => negb (Ascii.eqb c "`")) u = true ->
  parse_inline (a ++ "`" ++ u ++ "`" ++ b) = [Segment a false false false; Segment u false false true; Segment b false false false].
Proof.
  intros A B PA PB U. unfold parse_inline. rewrite scan_plain by exact PA. cbn [append scan].
  change (scan (u ++ String "`" b) "" false false true) with (scan (u ++ ("`" ++ b)) "" false false true). rewrite scan_code by exact U. cbn [append scan].
  rewrite <- (sapp_nil_r b) at 1. rewrite scan_plain by exact PB. cbn [append scan]. unfold flush.
  destruct (String.eqb_spec a ""); [contradiction|]. destruct (String.eqb_spec b ""); [contradiction|]. reflexivity.
Qed.

(** ** The runs read back *)
Definition codeRun (size : string) (t : string) : tpl := (TE "a:r" [] [TE "a:rPr" [("lang", [Lit "en-US"]); ("sz", [Lit size]); ("dirty", [Lit "0"])] [TS "a:latin" [("typeface", [Lit "Consolas"])]; TE "a:solidFill" [] [TS "a:srgbClr" [("val", [Lit "C7254E"])]]]; TE "a:t" [] [TT [Esc t]]]).
Definition plainRun (size b i : string) (t : string) : tpl := (TE "a:r" [] [TS "a:rPr" [("lang", [Lit "en-US"]); ("sz", [Lit size]); ("b", [Lit b]); ("i", [Lit i]); ("dirty", [Lit "0"])]; TE "a:t" [] [TT [Esc t]]]).
Definition colorRun (size b i c : string) (t : string) : tpl := (TE "a:r" [] [TE "a:rPr" [("lang", [Lit "en-US"]); ("sz", [Lit size]); ("b", [Lit b]); ("i", [Lit i]); ("dirty", [Lit "0"])] [TE "a:solidFill" [] [TS "a:srgbClr" [("val", [Lit c])]]]; TE "a:t" [] [TT [Esc t]]]).
Definition one (b : bool) : string := if b then "1" else "0".
Definition runT (size : N) (b i : bool) (color : option string) (g : segment) : tpl :=
  if sg_code g then codeRun (dec size) (sg_text g)
  else match color with
       | Some c => colorRun (dec size) (one (b || sg_bold g)) (one (i || sg_italic g)) (clean c) (sg_text g)
       | None => plainRun (dec size) (one (b || sg_bold g)) (one (i || sg_italic g)) (sg_text g)
       end.
Lemma run_str size b i color g : run_xml size b i color g = tstr (runT size b i color g).
Proof.
  unfold run_xml, runT. destruct (sg_code g).
  - unfold codeRun. tstr_eq.
  - unfold one. generalize (if (b || sg_bold g)%bool then "1" else "0"), (if (i || sg_italic g)%bool then "1" else "0"). intros x y. destruct color as [c|]; [unfold colorRun|unfold plainRun]; tstr_eq.
Qed.
Lemma run_tok size b i color g : text_ok (sg_text g) = true -> opt_ok color_ok color = true -> tok (runT size b i color g).
Proof.
  intros H C. assert (D := dec_val size). assert (O : forall x, sforall plain_val (one x) = true) by (intros []; reflexivity).
  unfold runT. destruct (sg_code g); [unfold codeRun; twf; pieces_ok|]. destruct color as [c|]; [|unfold plainRun; twf; pieces_ok; apply O].
  assert (K := clean_plain c C). unfold colorRun; twf; pieces_ok; apply O.
Qed.

Lemma run_reads size b i color g : opt_ok color_ok color = true -> run_view (tnode (runT size b i color g)) = seg_run size b i color g.
Proof.
  intros C. unfold run_view, seg_run, runT. destruct (sg_code g).
  - unfold codeRun. pread. cbn [map]. rewrite !text_leaf. unfold fills, faces. pread. cbn. now rewrite !sapp_nil_r.
  - unfold one. generalize (if (b || sg_bold g)%bool then "1" else "0"), (if (i || sg_italic g)%bool then "1" else "0"). intros x y.
    destruct color as [c|]; [unfold colorRun|unfold plainRun]; pread; cbn [map]; rewrite !text_leaf; unfold fills, faces; pread; cbn;
      rewrite !sapp_nil_r; [rewrite (clean_value c C)|]; reflexivity.
Qed.
Lemma text_ok_app a b : text_ok (a ++ b) = text_ok a && text_ok b.
Proof. induction a as [|c a IH]; [reflexivity|]. cbn [append text_ok]. rewrite IH. now rewrite !andb_assoc. Qed.
Lemma scan_ok s : forall cur b i code, text_ok s = true -> text_ok cur = true -> Forall (fun g => text_ok (sg_text g) = true) (scan s cur b i code).
Proof.
  induction s as [s IH] using string_len_ind. intros cur b i code S C.
  assert (FL : forall l x y, Forall (fun g => text_ok (sg_text g) = true) l -> Forall (fun g => text_ok (sg_text g) = true) (flush cur x y l)).
  { intros l x y F. unfold flush. destruct (String.eqb cur ""); [exact F|constructor; [exact C|exact F]]. }
  destruct s as [|c s].
  - cbn [scan]. destruct (String.eqb cur ""); [constructor|]. constructor; [exact C|constructor].
  - cbn [text_ok] in S. rewrite !andb_true_iff in S. destruct S as [S1 S2]. cbn [scan].
    assert (R : forall cur' x y z, text_ok cur' = true -> Forall (fun g => text_ok (sg_text g) = true) (scan s cur' x y z)) by (intros; apply IH; [cbn; lia|assumption|assumption]).
    destruct (Ascii.eqb c "`"); [destruct code; [constructor; [exact C|now apply R]|apply FL; now apply R]|].
    destruct ((Ascii.eqb c "*" || Ascii.eqb c "_") && negb code).
    + destruct s as [|d s]; [apply FL; now apply R|]. destruct (Ascii.eqb d c); [|apply FL; now apply R].
      apply FL. apply IH; [cbn; lia| |reflexivity]. cbn [text_ok] in S2. rewrite !andb_true_iff in S2. tauto.
    + apply R. rewrite text_ok_app, C. cbn [text_ok s1]. destruct S1 as [-> ->]. reflexivity.
Qed.
Lemma parse_ok s : text_ok s = true -> Forall (fun g => text_ok (sg_text g) = true) (parse_inline s).
Proof.
  intros H. unfold parse_inline. pose proof (scan_ok s "" false false false H eq_refl) as F. destruct (scan s "" false false false); [constructor; [exact H|constructor]|exact F].
Qed.
Lemma runs_read s size b i color : text_ok s = true -> opt_ok color_ok color = true ->
  exists x, xml_read ("<a:p>" ++ rich_runs s size b i color ++ "</a:p>") = Some x /\ map run_view (at_path ["a:r"] x) = map (seg_run size b i color) (parse_inline s).
Proof.
  intros H C. set (body := map (runT size b i color) (parse_inline s)). exists (tnode (TE "a:p" [] body)).
  assert (E : "<a:p>" ++ rich_runs s size b i color ++ "</a:p>" = tstr (TE "a:p" [] body)).
  { unfold rich_runs. assert (Q : sconcat (map (run_xml size b i color) (parse_inline s)) = tstrs body).
    { unfold body. induction (parse_inline s) as [|g l IH]; [reflexivity|]. cbn [map sconcat fold_right]. fold (sconcat (map (run_xml size b i color) l)). rewrite IH, run_str. reflexivity. }
    rewrite Q. reflexivity. }
  split.
  - rewrite E. apply tpl_read_node. apply tok_TE; [reflexivity|reflexivity|]. unfold body. apply toks_map.
    pose proof (parse_ok s H) as F. rewrite Forall_forall in F. intros g Hg. apply run_tok; auto.
  - rewrite path_list by (cbn [tbody]; unfold body; apply forallb_forall; intros t Ht; apply in_map_iff in Ht; destruct Ht as (g & <- & _); unfold runT; destruct (sg_code g); [reflexivity|destruct color; reflexivity]).
    cbn [tbody]. replace (filter (called "a:r") body) with body.
    2:{ unfold body. generalize (parse_inline s). clear. intros l. symmetry. induction l as [|g l IH]; [reflexivity|]. cbn [map filter].
        replace (called "a:r" (runT size b i color g)) with true by (unfold runT; destruct (sg_code g); [reflexivity|destruct color; reflexivity]). now rewrite IH. }
    change (flat_map (at_path []) (map tnode body)) with (flat_map (fun y => [y]) (map tnode body)). rewrite flat_map_self. unfold body. rewrite !map_map. apply map_ext. intros g. now apply run_reads.
Qed.
Lemma view_eq l : flat_map (fun g => map (fun c => (c, if sg_code g then InCode else Text (sg_bold g) (sg_italic g))) (chars (sg_text g))) l = view l.
Proof. reflexivity. Qed.
