From Coq Require Import String Ascii List Bool Arith NArith Lia.
From Verif Require Import Str StrRefl Num EscapeModel EscapeProofs XmlSpec XmlProofs XmlTpl OpcSpec GenProofs TplRead XmlPath PathRead LookSpec TableModel TableSpec TableProofs TableLook TxtModel TxtSpec.
Import ListNotations.
Open Scope nat_scope.
Open Scope string_scope.

(** ** Templates *)
Definition oT {A} (f : A -> tpl) (o : option A) : list tpl := match o with Some x => [f x] | None => [] end.
Definition clrT (c : string) : tpl := TE "a:solidFill" [] [TS "a:srgbClr" [("val", [Lit c])]].
Definition latT (c : string) : tpl := TS "a:latin" [("typeface", [Esc c])].
Definition rprA (f : fmt) := ([("lang", [Lit "en-US"]); ("sz", [Lit (dec (wmul u32_max (match f_size f with Some n => n | None => 18%N end) 100))]); ("b", [Lit (bit (f_bold f))]); ("i", [Lit (bit (f_italic f))])]
  ++ (if f_underline f then [("u", [Lit "sng"])] else []) ++ [("dirty", [Lit "0"])])%list.
Definition rprT (f : fmt) : tpl := TE "a:rPr" (rprA f) (oT clrT (f_color f) ++ oT latT (f_font f))%list.
Definition trunT (r : trun) : tpl := TE "a:r" [] [rprT (r_format r); TE "a:t" [] [TT [Esc (r_text r)]]].
Definition befT (n : N) : tpl := TE "a:spcBef" [] [TS "a:spcPts" [("val", [Lit (dec n)])]].
Definition aftT (n : N) : tpl := TE "a:spcAft" [] [TS "a:spcPts" [("val", [Lit (dec n)])]].
Definition buT (b : bool) : list tpl := if b then [TS "a:buChar" [("char", [Lit "•"])]] else [].
Definition pprA (p : tpara) : list (string * list piece) := [("algn", [Lit (talign_value (p_align p))]); ("lvl", [Lit (dec (p_level p))])].
Definition pprT (p : tpara) : tpl :=
  if some (p_before p) || some (p_after p) || some (p_line p) then TE "a:pPr" (pprA p) (oT befT (p_before p) ++ oT aftT (p_after p) ++ buT (p_bullet p))%list
  else if p_bullet p then TE "a:pPr" (pprA p) (buT true) else TS "a:pPr" (pprA p).
Definition tparaT (p : tpara) : tpl := TE "a:p" [] (pprT p :: map trunT (p_runs p)).
Definition parasT (f : tframe) : list tpl := match t_paras f with [] => [TE "a:p" [] [TS "a:endParaRPr" []]] | l => map tparaT l end.
Definition bodyA (f : tframe) : list (string * list piece) :=
  [("wrap", [Lit (if t_wrap f then "square" else "none")]); ("lIns", [Lit (dec (t_left f))]); ("rIns", [Lit (dec (t_right f))]); ("tIns", [Lit (dec (t_top f))]); ("bIns", [Lit (dec (t_bottom f))]); ("anchor", [Lit (tanchor_value (t_anchor f))])].
Definition tframeT (f : tframe) : tpl := TE "p:txBody" [] (TS "a:bodyPr" (bodyA f) :: TS "a:lstStyle" [] :: parasT f).
(** ** Their text *)
Lemma trun_str r : trun_xml r = tstr (trunT r).
Proof.
  unfold trun_xml, trunT, rprT, rprA, bit. cbv zeta. destruct (f_color (r_format r)) as [c|], (f_font (r_format r)) as [g|], (f_underline (r_format r)); cbn [oT app];
  generalize (dec (wmul u32_max match f_size (r_format r) with Some n => n | None => 18%N end 100)) (if f_bold (r_format r) then "1" else "0") (if f_italic (r_format r) then "1" else "0"); intros; unfold clrT, latT; tstr_eq.
Qed.
Lemma ppr_str p : ppr_head p ++ (if some (p_before p) || some (p_after p) || some (p_line p) then
        ">" ++ (match p_before p with Some n => ("<a:spcBef><a:spcPts val=""" ++ dec n ++ """/></a:spcBef>") | None => "" end)
        ++ (match p_after p with Some n => ("<a:spcAft><a:spcPts val=""" ++ dec n ++ """/></a:spcAft>") | None => "" end)
        ++ (if p_bullet p then "<a:buChar char=""•""/>" else "") ++ "</a:pPr>"
      else if p_bullet p then "><a:buChar char=""•""/></a:pPr>" else "/>") = tstr (pprT p).
Proof.
  unfold ppr_head, pprT, pprA. generalize (talign_value (p_align p)). intros a.
  destruct (p_before p) as [b|], (p_after p) as [f|], (p_line p) as [l|], (p_bullet p); cbn [some orb oT buT app]; unfold befT, aftT; tstr_eq.
Qed.
Lemma tpara_str p : tpara_xml p = tstr (tparaT p).
Proof.
  unfold tpara_xml, tparaT. rewrite <- (sapp_assoc (ppr_head p)). rewrite ppr_str. replace (sconcat (map trun_xml (p_runs p))) with (tstrs (map trunT (p_runs p))).
  2:{ unfold tstrs. rewrite map_map. f_equal. apply map_ext. intros r. symmetry. apply trun_str. }
  cbn [tstr map]. rewrite sconcat_cons. fold (tstrs (map trunT (p_runs p))). generalize (tstr (pprT p)) (tstrs (map trunT (p_runs p))). intros. tstr_eq.
Qed.
Lemma tframe_str f : tframe_xml f = tstr (tframeT f).
Proof.
  unfold tframe_xml, tframeT, bodyA. cbv zeta.
  assert (E : forall s, sconcat (map tpara_xml (t_paras f)) ++ (match t_paras f with [] => "<a:p><a:endParaRPr/></a:p>" | _ => "" end) ++ s = tstrs (parasT f) ++ s).
  { intros s. unfold parasT. destruct (t_paras f) as [|p l]; [tstr_eq|]. cbn [append]. f_equal. unfold tstrs. rewrite map_map. f_equal. apply map_ext. apply tpara_str. }
  rewrite E. cbn [tstr map]. rewrite !sconcat_cons. fold (tstrs (parasT f)). generalize (tstrs (parasT f)) (if t_wrap f then "square" else "none") (tanchor_value (t_anchor f)). intros. tstr_eq.
Qed.
(** ** Well-formedness *)
Lemma hex_plain s : color_ok s = true -> sforall plain_val s = true.
Proof.
  unfold color_ok. induction s as [|c t IH]; [reflexivity|]. cbn [sforall]. rewrite andb_true_iff. intros [A B]. rewrite (IH B), andb_true_r.
  clear -A. destruct c as [[] [] [] [] [] [] [] []]; vm_compute in *; congruence.
Qed.
Lemma trun_tok r : trun_ok r = true -> tok (trunT r).
Proof.
  unfold trun_ok. rewrite !andb_true_iff. intros [[[T C] F] _]. unfold trunT, rprT.
  assert (A : tattrs_ok (rprA (r_format r)) = true).
  { unfold rprA, bit. destruct (f_bold (r_format r)), (f_italic (r_format r)), (f_underline (r_format r)); cbn [app]; aok. }
  assert (L : toks (oT clrT (f_color (r_format r)))).
  { destruct (f_color (r_format r)) as [c|]; [|exact I]. cbn [opt_ok oT] in *. apply hex_plain in C. unfold clrT. twf. }
  assert (toks (oT latT (f_font (r_format r)))).
  { destruct (f_font (r_format r)) as [c|]; [|exact I]. cbn [opt_ok oT] in *. unfold latT. twf. }
  assert (tok (TE "a:rPr" (rprA (r_format r)) (oT clrT (f_color (r_format r)) ++ oT latT (f_font (r_format r)))%list)) by twf.
  twf.
Qed.
Lemma ppr_tok p : tok (pprT p).
Proof.
  unfold pprT. assert (A : tattrs_ok (pprA p) = true) by (unfold pprA; destruct (p_align p); cbn [talign_value]; aok).
  destruct (p_before p) as [b|], (p_after p) as [f|], (p_line p) as [l|], (p_bullet p); cbn [some orb oT buT app]; unfold befT, aftT; twf.
Qed.
Lemma tframe_tok f : tframe_ok f = true -> tok (tframeT f).
Proof.
  intros H. unfold tframeT. assert (A : tattrs_ok (bodyA f) = true) by (unfold bodyA; destruct (t_wrap f), (t_anchor f); cbn [tanchor_value]; aok).
  assert (P : toks (parasT f)).
  { unfold parasT. destruct (t_paras f) as [|p l] eqn:E; [twf|]. rewrite <- E. apply toks_map. intros q Hq. unfold tparaT. pose proof (ppr_tok q).
    assert (toks (map trunT (p_runs q))). { apply toks_map. intros r Hr. apply trun_tok. unfold tframe_ok in H. rewrite forallb_forall in H. specialize (H q Hq). rewrite forallb_forall in H. now apply H. }
    twf. }
  twf.
Qed.
(** ** Reading *)
Ltac at_attr := unfold attr, attr_opt, tnode, attrs_val; cbn [app map fst snd find String.eqb Ascii.eqb Bool.eqb option_map]; rewrite ?vals_lit, ?vals_esc.
Lemma run_read r : trun_ok r = true -> run_seen (tnode (trunT r)) = want_trun r.
Proof.
  unfold trun_ok. rewrite !andb_true_iff. intros [_ Z]. unfold run_seen, want_trun. cbv zeta.
  assert (E : at_path ["a:rPr"] (tnode (trunT r)) = [tnode (rprT (r_format r))]) by (unfold trunT; rewrite path_one, named_children; cbn [tbody]; rewrite named_list by reflexivity; reflexivity).
  assert (E' : at_path ["a:t"] (tnode (trunT r)) = [tnode (TE "a:t" [] [TT [Esc (r_text r)]])]) by (unfold trunT; rewrite path_one, named_children; cbn [tbody]; rewrite named_list by reflexivity; reflexivity).
  rewrite E, E'. cbn [map]. rewrite text_leaf, vals_esc. f_equal. f_equal. set (f := r_format r) in *. unfold run_look.
  assert (B : attr_opt "b" (tnode (rprT f)) = Some (bit (f_bold f))) by (unfold rprT, rprA; at_attr; reflexivity).
  assert (I : attr_opt "i" (tnode (rprT f)) = Some (bit (f_italic f))) by (unfold rprT, rprA; at_attr; reflexivity).
  assert (U : attr_opt "u" (tnode (rprT f)) = on "sng" (f_underline f)) by (unfold rprT, rprA; destruct (f_underline f); at_attr; reflexivity).
  assert (S : attr_opt "sz" (tnode (rprT f)) = Some (dec (match f_size f with Some n => n * 100 | None => 1800 end))).
  { unfold rprT, rprA. at_attr. f_equal. f_equal. destruct (f_size f) as [n|]; [|reflexivity]. cbn [points_ok] in Z. apply N.leb_le in Z. now apply wmul_exact. }
  rewrite B, I, U, S. f_equal; [f_equal|].
  - unfold fills, rprT. destruct (f_color f) as [c|], (f_font f) as [g|]; cbn [oT app opt_list]; unfold clrT, latT; pread; at_attr; reflexivity.
  - unfold faces, rprT. destruct (f_color f) as [c|], (f_font f) as [g|]; cbn [oT app opt_list]; unfold clrT, latT; pread; at_attr; reflexivity.
Qed.
Lemma ppr_name p : tname (pprT p) = Some "a:pPr" /\ elemT (pprT p) = true.
Proof. unfold pprT. destruct (some (p_before p) || some (p_after p) || some (p_line p)); [split; reflexivity|]. destruct (p_bullet p); split; reflexivity. Qed.
Lemma para_read p : forallb trun_ok (p_runs p) = true -> para_seen (tnode (tparaT p)) = want_tpara p.
Proof.
  intros H. unfold para_seen, want_tpara, tparaT. destruct (ppr_name p) as [N E]. rewrite !path_one, !named_children. cbn [tbody]. rewrite !named_consE by exact E. unfold called. rewrite N.
  cbn [String.eqb Ascii.eqb Bool.eqb app]. rewrite (named_all "a:r" trunT) by reflexivity.
  assert (Q : named "a:pPr" (tsnodes (map trunT (p_runs p))) = []).
  { clear. induction (p_runs p) as [|r l IH]; [reflexivity|]. cbn [map]. rewrite named_consE by reflexivity. exact IH. }
  rewrite Q. cbn [map]. f_equal.
  - f_equal. assert (A : attr_opt "algn" (tnode (pprT p)) = Some (want_talign (p_align p)) /\ attr_opt "lvl" (tnode (pprT p)) = Some (dec (p_level p))).
    { unfold pprT, pprA. destruct (some (p_before p) || some (p_after p) || some (p_line p)); [|destruct (p_bullet p)]; at_attr; destruct (p_align p); split; reflexivity. }
    destruct A as [-> ->]. unfold pprT, vals_at.
    destruct (p_before p) as [b|], (p_after p) as [f|], (p_line p) as [l|], (p_bullet p); cbn [some orb oT buT app opt_list map]; unfold befT, aftT; pread; at_attr; reflexivity.
  - rewrite map_map. apply map_ext_in. intros r Hr. apply run_read. rewrite forallb_forall in H. now apply H.
Qed.
Theorem frame_shown f : tframe_ok f = true -> exists x, xml_read (tframe_xml f) = Some x /\ root_name x = "p:txBody" /\ body_seen x = want_body f
  /\ map para_seen (at_path ["a:p"] x) = match t_paras f with [] => [([], [])] | l => map want_tpara l end.
Proof.
  intros H. exists (tnode (tframeT f)). split. { rewrite tframe_str. apply tpl_read_node. now apply tframe_tok. }
  split; [reflexivity|].
  assert (P : forall m, String.eqb "a:p" m = false -> named m (tsnodes (parasT f)) = []).
  { intros m M. unfold parasT. destruct (t_paras f) as [|p l]; [rewrite named_list by reflexivity; cbn [filter]; unfold called; cbn [tname]; now rewrite M|].
    generalize (p :: l). intros k. induction k as [|q k IH]; [reflexivity|]. cbn [map]. rewrite named_consE by reflexivity. unfold called. cbn [tname tparaT]. now rewrite M, IH. }
  split.
  - unfold body_seen, tframeT. rewrite path_one, named_children. cbn [tbody]. rewrite !named_consE by reflexivity. rewrite P by reflexivity. cbn [called tname String.eqb Ascii.eqb Bool.eqb app map].
    unfold bodyA, want_body. at_attr. now destruct (t_anchor f).
  - unfold tframeT. rewrite path_one, named_children. cbn [tbody]. rewrite !named_consE by reflexivity. cbn [called tname String.eqb Ascii.eqb Bool.eqb app]. unfold parasT. unfold tframe_ok in H.
    destruct (t_paras f) as [|p l]; [reflexivity|]. revert H. generalize (p :: l). intros k H. rewrite (named_all "a:p" tparaT) by reflexivity. rewrite map_map.
    apply map_ext_in. intros q Hq. apply para_read. rewrite forallb_forall in H. now apply H.
Qed.
(** ** Formats on their own *)
Definition fA (b : bool) (n v : string) : list (string * list piece) := if b then [(n, [Lit v])] else [].
Definition fmtA (f : fmt) := (fA (f_bold f) "b" "1" ++ fA (f_italic f) "i" "1" ++ fA (f_underline f) "u" "sng" ++ fA (f_strike f) "strike" "sngStrike"
  ++ (if f_sub f then [("baseline", [Lit "-25000"])] else fA (f_super f) "baseline" "30000") ++ match f_size f with Some n => [("sz", [Lit (dec (wmul u32_max n 100))])] | None => [] end)%list.
Definition hiT (c : string) : tpl := TE "a:highlight" [] [TS "a:srgbClr" [("val", [Lit c])]].
Definition fmtT (f : fmt) : tpl := TE "a:rPr" (fmtA f) (oT hiT (f_highlight f)).
Lemma araw_app a b : attrs_raw (a ++ b) = attrs_raw a ++ attrs_raw b.
Proof. unfold attrs_raw. now rewrite map_app, sconcat_app. Qed.
Lemma fmtA_str f : fmt_attrs f = attrs_raw (fmtA f).
Proof.
  unfold fmt_attrs, fmtA. rewrite !araw_app. f_equal; [now destruct (f_bold f)|]. f_equal; [now destruct (f_italic f)|]. f_equal; [now destruct (f_underline f)|]. f_equal; [now destruct (f_strike f)|].
  f_equal; [destruct (f_sub f), (f_super f); reflexivity|]. destruct (f_size f) as [n|]; [|reflexivity]. tstr_eq.
Qed.
Lemma fmt_str f : format_text f = tstr (fmtT f).
Proof.
  unfold format_text, fmtT. rewrite fmtA_str. cbn [tstr]. generalize (attrs_raw (fmtA f)). intros a. unfold fmt_highlight_xml. destruct (f_highlight f); cbn [oT]; unfold hiT; tstr_eq.
Qed.
Lemma fmtA_ok f : tattrs_ok (fmtA f) = true.
Proof.
  unfold fmtA, fA. destruct (f_bold f), (f_italic f), (f_underline f), (f_strike f), (f_sub f); try destruct (f_super f); destruct (f_size f); cbn [app]; aok.
Qed.
Theorem format_shown f : points_ok (f_size f) = true -> opt_ok color_ok (f_highlight f) = true ->
  exists x, xml_read (format_text f) = Some x /\ format_seen x = want_format f.
Proof.
  intros Z C. exists (tnode (fmtT f)). split.
  { rewrite fmt_str. apply tpl_read_node. pose proof (fmtA_ok f). assert (toks (oT hiT (f_highlight f))).
    { destruct (f_highlight f) as [c|]; [|exact I]. cbn [opt_ok oT] in *. apply hex_plain in C. unfold hiT. twf. }
    unfold fmtT. twf. }
  unfold format_seen, want_format. f_equal.
  - unfold fmtT, attr_opt, tnode, attrs_val, fmtA, fA, on. destruct (f_size f) as [n|]; [cbn [points_ok] in Z; apply N.leb_le in Z; rewrite (wmul_exact _ n 100) by exact Z|];
    destruct (f_bold f), (f_italic f), (f_underline f), (f_strike f), (f_sub f); try destruct (f_super f); cbn [app map fst snd find String.eqb Ascii.eqb Bool.eqb option_map]; rewrite ?vals_lit; reflexivity.
  - unfold vals_at, fmtT. destruct (f_highlight f) as [c|]; cbn [oT opt_list]; unfold hiT; pread; at_attr; reflexivity.
Qed.
Theorem colored c f : color_ok c = true -> f_color (fmt_color c f) = Some (color_value c) /\ f_highlight (fmt_highlight c f) = Some (color_value c).
Proof. intros H. cbn [fmt_color fmt_highlight f_color f_highlight]. now rewrite clean_value. Qed.
(** ** Text from the right *)
Definition rtlT (x : rtl) : tpl :=
  TE "r" [] [TS "a:pPr" (fA (x_right x) "rtl" "1"); TE "a:rPr" (match x_lang x with Some l => [("lang", [Lit l])] | None => [] end) (oT (fun f => TS "a:cs" [("typeface", [Esc f])]) (x_font x))].
Lemma rtl_str x : rtl_texts x = tstr (rtlT x).
Proof. unfold rtl_texts, rtlT, rtl_ppr, rtl_rpr, rtl_font, fA. destruct (x_right x), (x_lang x), (x_font x); cbn [oT]; tstr_eq. Qed.
Theorem rtl_shown x : opt_ok (sforall plain_val) (x_lang x) = true -> opt_ok attr_ok (x_font x) = true ->
  exists y, xml_read (rtl_texts x) = Some y /\ rtl_seen y = ([on "1" (x_right x)], [x_lang x], map Some (opt_list (x_font x))).
Proof.
  intros L F. exists (tnode (rtlT x)). split.
  { rewrite rtl_str. apply tpl_read_node. unfold rtlT, fA. destruct (x_right x), (x_lang x), (x_font x); cbn [oT opt_ok] in *; twf. }
  unfold rtl_seen, rtlT, fA. destruct (x_right x), (x_lang x), (x_font x); cbn [oT opt_list on map]; pread; at_attr; reflexivity.
Qed.
Theorem preset_shown l x : exists y, xml_read (rtl_texts (rtl_from l x)) = Some y /\ rtl_seen y = ([Some "1"], [Some (nth_lang l)], [Some "Arial"]).
Proof. destruct (rtl_shown (rtl_from l x)) as (y & A & B); [now destruct l|reflexivity|]. exists y. split; [exact A|]. rewrite B. now destruct l. Qed.
Theorem spaced n p : (n * 100 <= u32_max)%N -> p_before (tpara_before n p) = Some (n * 100)%N /\ p_after (tpara_after n p) = Some (n * 100)%N.
Proof. intros H. unfold tpara_before, tpara_after. cbn [p_before p_after]. now rewrite !wmul_exact. Qed.
Theorem style_dropped s f g : f_bold f = f_bold g -> f_italic f = f_italic g -> f_underline f = f_underline g -> f_color f = f_color g -> f_size f = f_size g -> f_font f = f_font g ->
  trun_xml (TRun s f) = trun_xml (TRun s g).
Proof. intros A B C D E F. unfold trun_xml. cbn [r_format r_text]. now rewrite A, B, C, D, E, F. Qed.
Theorem line_dropped p n : p_before p <> None ->
  tpara_xml (TPara (p_runs p) (p_align p) (p_level p) (p_bullet p) (p_before p) (p_after p) (Some n)) = tpara_xml p.
Proof. intros B. unfold tpara_xml, ppr_head. cbn [p_runs p_align p_level p_bullet p_before p_after p_line]. destruct (p_before p); [reflexivity|congruence]. Qed.
Theorem level_capped n p : p_level (tpara_level n p) = (if n <=? 8 then n else 8)%N.
Proof. unfold tpara_level. cbn [p_level]. destruct (N.leb_spec n 8); lia. Qed.
Theorem added_end p r f : t_paras (tframe_add p f) = (t_paras f ++ [p])%list /\ want_body (tframe_add p f) = want_body f
  /\ want_tpara (tpara_add r p) = (fst (want_tpara p), snd (want_tpara p) ++ [want_trun r])%list.
Proof. split; [reflexivity|]. split; [reflexivity|]. unfold want_tpara, tpara_add. cbn [p_runs p_align p_level p_before p_after p_bullet fst snd]. now rewrite map_app. Qed.
Theorem points_wrap : exists x, xml_read (trun_xml (TRun "a" (Fmt false false false false None None (Some 42949673%N) None false false))) = Some x
  /\ map (attr "sz") (at_path ["a:rPr"] x) = ["4"].
Proof. eexists. split; [vm_compute; reflexivity|vm_compute; reflexivity]. Qed.
Theorem unescaped : text_ok "<" = true /\ xml_read (trun_xml (TRun "a" (fmt_color "<" fmt_new))) = None /\ xml_read (rtl_texts (rtl_language "<" rtl_new)) = None.
Proof. repeat split; vm_compute; reflexivity. Qed.
