(** A proof device: XML templates made of literal and escaped pieces, their
    text and the tree the reader of XmlSpec returns for them.  Nothing here
    models code; the theorem of interest is [tpl_read]: to know what a
    generated string reads as, write it as the text of a template. *)
From Coq Require Import String Ascii List Bool NArith Lia.
From Verif Require Import Str EscapeModel EscapeProofs XmlSpec XmlProofs XmlWriterProofs.
Import ListNotations.
Open Scope string_scope.

(** Pieces of an attribute value or of character data. *)
Inductive piece :=
| Lit (s : string)   (* written as it is *)
| Esc (s : string).  (* written through escape_xml *)

Definition praw (p : piece) : string := match p with Lit s => s | Esc s => escape_xml s end.
Definition pval (p : piece) : string := match p with Lit s => s | Esc s => s end.
Definition raws (l : list piece) : string := sconcat (map praw l).
Definition vals (l : list piece) : string := sconcat (map pval l).

Inductive tpl :=
| TE (n : string) (a : list (string * list piece)) (body : list tpl)
| TS (n : string) (a : list (string * list piece))
| TT (t : list piece)
| TC (s : string) (ns : list node).   (* a literal run of whole elements *)

Definition araw (p : string * list piece) : string := " " ++ fst p ++ "=""" ++ raws (snd p) ++ """".
Definition attrs_raw (a : list (string * list piece)) : string := sconcat (map araw a).
Definition attrs_val (a : list (string * list piece)) : list (string * string) :=
  map (fun p => (fst p, vals (snd p))) a.

Fixpoint tstr (t : tpl) : string :=
  match t with
  | TE n a body => "<" ++ n ++ attrs_raw a ++ ">" ++ sconcat (map tstr body) ++ "</" ++ n ++ ">"
  | TS n a => "<" ++ n ++ attrs_raw a ++ "/>"
  | TT l => raws l
  | TC s _ => s
  end.
Definition tstrs (l : list tpl) : string := sconcat (map tstr l).

Fixpoint tnodes (t : tpl) : list node :=
  match t with
  | TE n a body => [Elem n (attrs_val a) (merge_text (concat (map tnodes body)))]
  | TS n a => [Elem n (attrs_val a) []]
  | TT l => [Txt (vals l)]
  | TC _ ns => ns
  end.
Definition tsnodes (l : list tpl) : list node := concat (map tnodes l).

(** Validity. *)
Definition pv_ok (p : piece) : bool :=
  match p with Lit s => sforall plain_val s | Esc s => attr_ok s end.
Definition pt_ok (p : piece) : bool :=
  match p with Lit s => sforall plain_text s && sforall not_cr s | Esc s => text_ok s end.

Fixpoint nodup_keys (a : list (string * list piece)) : bool :=
  match a with
  | [] => true
  | p :: a => negb (existsb (fun q => String.eqb (fst p) (fst q)) a) && nodup_keys a
  end.
Definition tattrs_ok (a : list (string * list piece)) : bool :=
  nodup_keys a && forallb (fun p => is_name (fst p) && forallb pv_ok (snd p)) a.

(** The reader turns [s] into the nodes [ns], whatever surrounds it. *)
Definition frag (s : string) (ns : list node) : Prop :=
  sforall not_cr s = true /\
  forall b fn fa k fs,
    xrun s (Some (St (LText b) (Frame fn fa k :: fs))) =
    let r := acc ns b k in Some (St (LText (fst r)) (Frame fn fa (snd r) :: fs)).

Fixpoint tok (t : tpl) : Prop :=
  match t with
  | TE n a body =>
      is_name n = true /\ tattrs_ok a = true /\
      (fix all (l : list tpl) : Prop := match l with [] => True | t :: l => tok t /\ all l end) body
  | TS n a => is_name n = true /\ tattrs_ok a = true
  | TT l => forallb pt_ok l = true
  | TC s ns => frag s ns
  end.
Fixpoint toks (l : list tpl) : Prop := match l with [] => True | t :: l => tok t /\ toks l end.

(** ** Composition *)

Lemma acc_app l1 l2 b k :
  acc (l1 ++ l2) b k = let r := acc l1 b k in acc l2 (fst r) (snd r).
Proof.
  revert b k; induction l1 as [|[n a x|s] l1 IH]; intros b k; simpl; auto; apply IH.
Qed.

Lemma frag_nil : frag "" [].
Proof. split; [reflexivity|]. intros. reflexivity. Qed.

Lemma frag_app s1 n1 s2 n2 : frag s1 n1 -> frag s2 n2 -> frag (s1 ++ s2) (n1 ++ n2).
Proof.
  intros [C1 H1] [C2 H2]. split; [now rewrite sforall_app, C1, C2|].
  intros b fn fa k fs. rewrite xrun_app, H1. cbv zeta. rewrite H2. now rewrite acc_app.
Qed.

Lemma xrun_pieces_val n a k v fs l : forallb pv_ok l = true ->
  xrun (raws l) (Some (St (LVal n a k c_quot v) fs)) = Some (St (LVal n a k c_quot (v ++ vals l)) fs).
Proof.
  revert v; induction l as [|p l IH]; intros v H; [simpl; now rewrite sapp_nil_r|].
  cbn [forallb] in H. apply andb_true_iff in H. destruct H as [H1 H2].
  unfold raws, vals. cbn [map sconcat fold_right]. rewrite xrun_app.
  assert (E : xrun (praw p) (Some (St (LVal n a k c_quot v) fs)) = Some (St (LVal n a k c_quot (v ++ pval p)) fs)).
  { destruct p; [now apply xrun_plain_val|now apply xrun_escape_val]. }
  rewrite E. fold (sconcat (map praw l)) (sconcat (map pval l)). fold (raws l) (vals l).
  rewrite IH by assumption. now rewrite sapp_assoc.
Qed.

Lemma xrun_pieces_text b fs l : forallb pt_ok l = true ->
  xrun (raws l) (Some (St (LText b) fs)) = Some (St (LText (b ++ vals l)) fs).
Proof.
  revert b; induction l as [|p l IH]; intros b H; [simpl; now rewrite sapp_nil_r|].
  cbn [forallb] in H. apply andb_true_iff in H. destruct H as [H1 H2].
  unfold raws, vals. cbn [map sconcat fold_right]. rewrite xrun_app.
  assert (E : xrun (praw p) (Some (St (LText b) fs)) = Some (St (LText (b ++ pval p)) fs)).
  { destruct p; cbn [pt_ok] in H1.
    - apply andb_true_iff in H1. now apply xrun_plain_text.
    - now apply xrun_escape_text, text_ok_chars. }
  rewrite E. fold (sconcat (map praw l)) (sconcat (map pval l)). fold (raws l) (vals l).
  rewrite IH by assumption. now rewrite sapp_assoc.
Qed.

Lemma pv_not_cr p : pv_ok p = true -> sforall not_cr (praw p) = true.
Proof.
  destruct p; simpl.
  - apply sforall_weaken, plain_val_not_cr.
  - intros H. now apply escape_not_cr, attr_ok_not_cr.
Qed.
Lemma pt_not_cr p : pt_ok p = true -> sforall not_cr (praw p) = true.
Proof.
  destruct p; cbn [pt_ok praw].
  - rewrite andb_true_iff. tauto.
  - intros H. now apply escape_not_cr, text_ok_not_cr.
Qed.
Lemma raws_not_cr (ok : piece -> bool) l :
  (forall p, ok p = true -> sforall not_cr (praw p) = true) -> forallb ok l = true -> sforall not_cr (raws l) = true.
Proof.
  intros Hok. induction l as [|p l IH]; [reflexivity|]. cbn [forallb]. rewrite andb_true_iff. intros [H1 H2].
  unfold raws. cbn [map sconcat fold_right]. rewrite sforall_app, Hok by assumption. now apply IH.
Qed.

Lemma nodup_keys_spec a : nodup_keys a = true -> NoDup (map fst a).
Proof.
  induction a as [|p a IH]; cbn [nodup_keys map]; [constructor|].
  rewrite andb_true_iff, negb_true_iff. intros [H1 H2]. constructor; [|auto].
  intros Hin. apply in_map_iff in Hin. destruct Hin as (q & Eq & Hq).
  rewrite <- not_true_iff_false in H1. apply H1. apply existsb_exists. exists q.
  split; [assumption|]. now apply String.eqb_eq.
Qed.

Lemma xrun_tattrs n a0 a fs : NoDup (map fst a0 ++ map fst a)%list ->
  forallb (fun p => is_name (fst p) && forallb pv_ok (snd p)) a = true ->
  xrun (attrs_raw a) (Some (St (tag_state n a0) fs)) = Some (St (tag_state n (a0 ++ attrs_val a)%list) fs).
Proof.
  revert a0; induction a as [|[k l] a IH]; intros a0 ND F.
  - simpl. now rewrite app_nil_r.
  - cbn [forallb fst snd] in F. rewrite !andb_true_iff in F. destruct F as [[Hk Hv] F'].
    unfold attrs_raw. cbn [map sconcat fold_right]. fold (sconcat (map araw a)). fold (attrs_raw a).
    unfold araw at 1. cbn [fst snd]. rewrite !xrun_app.
    assert (E1 : xrun " " (Some (St (tag_state n a0) fs)) = Some (St (LTag n a0) fs)).
    { destruct a0; reflexivity. }
    rewrite E1, xrun_attr_name by assumption.
    assert (E2 : xrun "=""" (Some (St (LAttr n a0 k) fs)) = Some (St (LVal n a0 k c_quot "") fs)).
    { cbn [xrun]. unfold xstep at 2. unfold step1 at 1.
      change (xml_char "=") with true. change (name_char "=") with false.
      change (Ascii.eqb "=" "=") with true. cbv iota.
      rewrite has_key_false; [reflexivity|].
      cbn [map fst] in ND. apply NoDup_remove_2 in ND. rewrite in_app_iff in ND. tauto. }
    rewrite E2, xrun_pieces_val by assumption.
    change ("" ++ vals l) with (vals l).
    assert (E3 : forall v, xrun """" (Some (St (LVal n a0 k c_quot v) fs)) = Some (St (tag_state n (a0 ++ [(k, v)])%list) fs)).
    { intros v. simpl. destruct a0; reflexivity. }
    rewrite E3. cbn [attrs_val map fst snd].
    replace (a0 ++ (k, vals l) :: map (fun p => (fst p, vals (snd p))) a)%list
      with ((a0 ++ [(k, vals l)]) ++ map (fun p => (fst p, vals (snd p))) a)%list by (rewrite <- app_assoc; reflexivity).
    apply IH; [|assumption].
    rewrite map_app. cbn [map fst] in *. rewrite <- app_assoc. exact ND.
Qed.

Lemma tattrs_not_cr a : tattrs_ok a = true -> sforall not_cr (attrs_raw a) = true.
Proof.
  unfold tattrs_ok. rewrite andb_true_iff. intros [_ F].
  induction a as [|[k l] a IH]; [reflexivity|].
  cbn [forallb fst snd] in F. rewrite !andb_true_iff in F. destruct F as [[Hk Hv] F'].
  unfold attrs_raw. cbn [map sconcat fold_right]. rewrite sforall_app.
  fold (sconcat (map araw a)). fold (attrs_raw a). rewrite IH by assumption.
  unfold araw. cbn [fst snd]. rewrite !sforall_app, (is_name_not_cr k) by assumption.
  rewrite (raws_not_cr pv_ok l pv_not_cr) by assumption. reflexivity.
Qed.

Lemma xrun_tstart n a fs b : is_name n = true -> tattrs_ok a = true ->
  xrun ("<" ++ n ++ attrs_raw a) (Some (St (LText b) fs)) = Some (St (tag_state n (attrs_val a)) (flush b fs)).
Proof.
  intros Hn Ha. unfold tattrs_ok in Ha. apply andb_true_iff in Ha. destruct Ha as [ND F].
  rewrite !xrun_app.
  change (xrun "<" (Some (St (LText b) fs))) with (Some (St LLt (flush b fs))).
  rewrite xrun_open_name by assumption.
  exact (xrun_tattrs n [] a (flush b fs) (nodup_keys_spec a ND) F).
Qed.

Lemma frag_self n a : is_name n = true -> tattrs_ok a = true ->
  frag ("<" ++ n ++ attrs_raw a ++ "/>") [Elem n (attrs_val a) []].
Proof.
  intros Hn Ha. split.
  { rewrite !sforall_app, tattrs_not_cr, (is_name_not_cr n) by assumption. reflexivity. }
  intros b fn fa k fs.
  rewrite <- sapp_assoc, <- sapp_assoc. rewrite (xrun_app _ "/>").
  rewrite sapp_assoc, xrun_tstart by assumption. rewrite flush_fl.
  destruct (attrs_val a); reflexivity.
Qed.

Lemma frag_elem n a body ns : is_name n = true -> tattrs_ok a = true -> frag body ns ->
  frag ("<" ++ n ++ attrs_raw a ++ ">" ++ body ++ "</" ++ n ++ ">") [Elem n (attrs_val a) (merge_text ns)].
Proof.
  intros Hn Ha [CB HB]. split.
  { rewrite !sforall_app, tattrs_not_cr, (is_name_not_cr n), CB by assumption. reflexivity. }
  intros b fn fa k fs.
  rewrite <- sapp_assoc, <- sapp_assoc. rewrite (xrun_app _ (">" ++ _)).
  rewrite sapp_assoc, xrun_tstart by assumption. rewrite flush_fl.
  rewrite (xrun_app ">").
  assert (E : xrun ">" (Some (St (tag_state n (attrs_val a)) (Frame fn fa (fl b k) :: fs)))
              = Some (St (LText "") (Frame n (attrs_val a) [] :: Frame fn fa (fl b k) :: fs))).
  { destruct (attrs_val a); reflexivity. }
  rewrite E; clear E. rewrite xrun_app, HB. cbv zeta.
  pose proof (acc_merge ns "" []) as M. cbv zeta in M.
  rewrite merge_text_empty in M. cbn [rev app] in M.
  destruct (acc ns "" []) as [b' k']. cbn [fst snd] in *.
  rewrite !xrun_app.
  change (xrun "</" (Some (St (LText b') (Frame n (attrs_val a) k' :: Frame fn fa (fl b k) :: fs))))
    with (Some (St (LClose "") (flush b' (Frame n (attrs_val a) k' :: Frame fn fa (fl b k) :: fs)))).
  rewrite flush_fl, xrun_close_name by assumption.
  cbn [xrun]. unfold xstep, step1. change (xml_char ">") with true. change (name_start ">") with false.
  change (name_char ">") with false. destruct (String.eqb n ""); cbv iota;
    change (Ascii.eqb ">" ">") with true; cbv iota; unfold close_elem; rewrite String.eqb_refl, M; reflexivity.
Qed.

Lemma frag_text l : forallb pt_ok l = true -> frag (raws l) [Txt (vals l)].
Proof.
  intros H. split; [now apply (raws_not_cr pt_ok l pt_not_cr)|].
  intros. now apply xrun_pieces_text.
Qed.

Section tpl_ind.
  Variable P : tpl -> Prop.
  Hypothesis HE : forall n a l, Forall P l -> P (TE n a l).
  Hypothesis HS : forall n a, P (TS n a).
  Hypothesis HT : forall l, P (TT l).
  Hypothesis HC : forall s ns, P (TC s ns).
  Fixpoint tpl_ind' (t : tpl) : P t :=
    match t with
    | TE n a l =>
        HE n a l ((fix go (l : list tpl) : Forall P l :=
                     match l with [] => Forall_nil _ | c :: l => Forall_cons _ (tpl_ind' c) (go l) end) l)
    | TS n a => HS n a
    | TT l => HT l
    | TC s ns => HC s ns
    end.
End tpl_ind.

Lemma tok_frag t : tok t -> frag (tstr t) (tnodes t).
Proof.
  induction t as [n a l IH|n a|l|s ns] using tpl_ind'; intros Hok.
  - destruct Hok as (Hn & Ha & Hl). cbn [tstr tnodes]. apply frag_elem; [assumption..|].
    clear Hn Ha. induction IH as [|t l Ht Hl' IHl]; [apply frag_nil|].
    destruct Hl as [A B]. cbn [map sconcat fold_right concat]. apply frag_app; [auto|]. now apply IHl.
  - destruct Hok as (Hn & Ha). now apply frag_self.
  - now apply frag_text.
  - exact Hok.
Qed.

Lemma toks_frag l : toks l -> frag (tstrs l) (tsnodes l).
Proof.
  induction l as [|t l IH]; intros H; [apply frag_nil|]. destruct H as [A B].
  apply frag_app; [now apply tok_frag|auto].
Qed.

Lemma toks_app l1 l2 : toks (l1 ++ l2) <-> toks l1 /\ toks l2.
Proof. induction l1; simpl; tauto. Qed.

Lemma toks_map {A} (f : A -> tpl) l : (forall x, In x l -> tok (f x)) -> toks (map f l).
Proof. induction l; simpl; auto 6. Qed.

Lemma toks_body l : (fix all (l : list tpl) : Prop := match l with [] => True | t :: l => tok t /\ all l end) l <-> toks l.
Proof. induction l; simpl; tauto. Qed.

Lemma tok_TE n a body : is_name n = true -> tattrs_ok a = true -> toks body -> tok (TE n a body).
Proof. intros. split; [assumption|]. split; [assumption|]. now apply toks_body. Qed.

Lemma tstrs_app l1 l2 : tstrs (l1 ++ l2) = tstrs l1 ++ tstrs l2.
Proof. unfold tstrs. now rewrite map_app, sconcat_app. Qed.
Lemma tstrs_cons t l : tstrs (t :: l) = tstr t ++ tstrs l.
Proof. reflexivity. Qed.
Lemma tsnodes_app l1 l2 : tsnodes (l1 ++ l2) = (tsnodes l1 ++ tsnodes l2)%list.
Proof. unfold tsnodes. now rewrite map_app, concat_app. Qed.

(** A whole document: declaration, white space, root element. *)
Definition decl : string := "<?xml version=""1.0"" encoding=""UTF-8"" standalone=""yes""?>".

Lemma tpl_read ws n a body : blank ws = true -> sforall not_cr ws = true -> tok (TE n a body) ->
  xml_read (decl ++ ws ++ tstr (TE n a body)) = Some (Elem n (attrs_val a) (merge_text (tsnodes body))).
Proof.
  intros Hb Hc Hok. pose proof (tok_frag _ Hok) as [C H].
  unfold xml_read. rewrite eol_id.
  2:{ rewrite !sforall_app, C, Hc. reflexivity. }
  rewrite !xrun_app.
  change (xrun decl start) with (Some (St (LText "") [Frame "" [] []])).
  rewrite xrun_plain_text.
  2:{ clear - Hb. induction ws as [|c w IH]; [reflexivity|]. cbn [blank sforall] in *.
      apply andb_true_iff in Hb. destruct Hb as [A B]. rewrite IH by assumption.
      revert A. destruct c as [[] [] [] [] [] [] [] []]; vm_compute; congruence. }
  change ("" ++ ws) with ws. rewrite H. cbn [tnodes acc fst snd].
  change (flush "" [Frame "" [] (Elem n (attrs_val a) (merge_text (concat (map tnodes body))) :: fl ws [])])
    with [Frame "" [] (Elem n (attrs_val a) (merge_text (concat (map tnodes body))) :: fl ws [])].
  unfold root_of, fl. destruct (String.eqb ws ""); [reflexivity|].
  cbn [rev app filter is_blank_text]. rewrite Hb. reflexivity.
Qed.

(** Without declaration (fragments that are whole documents). *)
Lemma tpl_read0 n a body : tok (TE n a body) ->
  xml_read (tstr (TE n a body)) = Some (Elem n (attrs_val a) (merge_text (tsnodes body))).
Proof.
  intros Hok. pose proof (tok_frag _ Hok) as [C H].
  unfold xml_read. rewrite eol_id by assumption. unfold start. rewrite H. reflexivity.
Qed.

(** ** Literal runs of elements *)

Lemma add_kid_frame x F fn fa k0 k fs :
  add_kid x (F ++ Frame fn fa (k ++ k0) :: fs) =
  match F with
  | [] => Frame fn fa ((x :: k) ++ k0) :: fs
  | _ => add_kid x F ++ Frame fn fa (k ++ k0) :: fs
  end%list.
Proof. destruct F as [|[n a kk] F]; reflexivity. Qed.

(** Stacks that agree except for what lies at and below the bottom frame. *)
Definition bottom (F : list frame) (k : list node) : list frame := (F ++ [Frame "" [] k])%list.
Definition based (F : list frame) (k : list node) (fn : string) (fa : list (string * string)) (k0 : list node) (fs : list frame) : list frame :=
  (F ++ Frame fn fa (k ++ k0) :: fs)%list.

Lemma add_kid_lift x F k fn fa k0 fs :
  exists F' k', add_kid x (bottom F k) = bottom F' k' /\ add_kid x (based F k fn fa k0 fs) = based F' k' fn fa k0 fs.
Proof.
  destruct F as [|[n a kk] F].
  - exists [], (x :: k). split; reflexivity.
  - exists (Frame n a (x :: kk) :: F), k. split; reflexivity.
Qed.

Lemma flush_lift b F k fn fa k0 fs :
  exists F' k', flush b (bottom F k) = bottom F' k' /\ flush b (based F k fn fa k0 fs) = based F' k' fn fa k0 fs.
Proof.
  unfold flush. destruct (String.eqb b "").
  - exists F, k. split; reflexivity.
  - apply add_kid_lift.
Qed.

Lemma close_lift n F k fn fa k0 fs s' :
  close_elem n (bottom F k) = Some s' ->
  exists F' k', s' = St (LText "") (bottom F' k') /\
    close_elem n (based F k fn fa k0 fs) = Some (St (LText "") (based F' k' fn fa k0 fs)).
Proof.
  destruct F as [|[m a kk] F]; [discriminate|].
  unfold bottom, based. cbn [app].
  destruct F as [|f F].
  - cbn [app close_elem]. destruct (String.eqb n m); [|discriminate]. intros E. injection E as <-.
    exists [], (Elem m a (rev kk) :: k). split; reflexivity.
  - cbn [app close_elem]. destruct (String.eqb n m); [|discriminate]. intros E. injection E as <-.
    destruct f as [m' a' k']. exists (Frame m' a' (Elem m a (rev kk) :: k') :: F), k. split; reflexivity.
Qed.

Lemma step_lift l F k c s' fn fa k0 fs :
  xstep (Some (St l (bottom F k))) c = Some s' ->
  exists l' F' k', s' = St l' (bottom F' k') /\
    xstep (Some (St l (based F k fn fa k0 fs))) c = Some (St l' (based F' k' fn fa k0 fs)).
Proof.
  unfold xstep. destruct (xml_char c); [|discriminate].
  destruct l; cbn [step1].
  - destruct (Ascii.eqb c "<").
    { intros E. injection E as <-. destruct (flush_lift b F k fn fa k0 fs) as (F' & k' & -> & ->). eauto. }
    destruct (Ascii.eqb c "&"); intros E; injection E as <-; eauto.
  - destruct (Ascii.eqb c ";"); [destruct (entity e); [|discriminate]|destruct (name_char c); [|discriminate]];
      intros E; injection E as <-; eauto.
  - destruct (Ascii.eqb c "/"); [|destruct (Ascii.eqb c "?"); [|destruct (name_start c); [|discriminate]]];
      intros E; injection E as <-; eauto.
  - destruct (Ascii.eqb c "?"); intros E; injection E as <-; eauto.
  - destruct (Ascii.eqb c ">"); [|destruct (Ascii.eqb c "?")]; intros E; injection E as <-; eauto.
  - destruct (name_char c); [intros E; injection E as <-; eauto|].
    destruct (xml_space c); [intros E; injection E as <-; eauto|].
    destruct (Ascii.eqb c "/"); [intros E; injection E as <-; eauto|].
    destruct (Ascii.eqb c ">"); [|discriminate]. intros E; injection E as <-.
    exists (LText ""), (Frame n [] [] :: F), k. split; reflexivity.
  - destruct (xml_space c); [intros E; injection E as <-; eauto|].
    destruct (Ascii.eqb c "/"); [intros E; injection E as <-; eauto|].
    destruct (Ascii.eqb c ">"); [intros E; injection E as <-; exists (LText ""), (Frame n a [] :: F), k; split; reflexivity|].
    destruct (name_start c); [|discriminate]. intros E; injection E as <-; eauto.
  - destruct (name_char c); [intros E; injection E as <-; eauto|].
    destruct (Ascii.eqb c "="); [|discriminate]. destruct (has_key k1 a); [discriminate|].
    intros E; injection E as <-; eauto.
  - destruct (Ascii.eqb c c_quot || Ascii.eqb c c_apos); [|discriminate]. intros E; injection E as <-; eauto.
  - destruct (Ascii.eqb c q); [intros E; injection E as <-; eauto|].
    destruct (Ascii.eqb c "<"); [discriminate|].
    destruct (Ascii.eqb c "&"); [intros E; injection E as <-; eauto|].
    destruct (xml_space c); intros E; injection E as <-; eauto.
  - destruct (Ascii.eqb c ";"); [destruct (entity e); [|discriminate]|destruct (name_char c); [|discriminate]];
      intros E; injection E as <-; eauto.
  - destruct (xml_space c); [intros E; injection E as <-; eauto|].
    destruct (Ascii.eqb c "/"); [intros E; injection E as <-; eauto|].
    destruct (Ascii.eqb c ">"); [|discriminate]. intros E; injection E as <-.
    exists (LText ""), (Frame n a [] :: F), k. split; reflexivity.
  - destruct (Ascii.eqb c ">"); [|discriminate]. intros E; injection E as <-.
    destruct (add_kid_lift (Elem n a []) F k fn fa k0 fs) as (F' & k' & E1 & E2).
    rewrite E1. unfold empty_elem. rewrite E2. eauto.
  - destruct (if String.eqb n "" then name_start c else name_char c); [intros E; injection E as <-; eauto|].
    destruct (Ascii.eqb c ">").
    { intros E. destruct (close_lift _ _ _ fn fa k0 fs _ E) as (F' & k' & -> & ->). eauto. }
    destruct (xml_space c); [|discriminate]. intros E; injection E as <-; eauto.
  - destruct (Ascii.eqb c ">").
    { intros E. destruct (close_lift _ _ _ fn fa k0 fs _ E) as (F' & k' & -> & ->). eauto. }
    destruct (xml_space c); [|discriminate]. intros E; injection E as <-; eauto.
Qed.

Lemma run_lift s l F k s' fn fa k0 fs :
  xrun s (Some (St l (bottom F k))) = Some s' ->
  exists l' F' k', s' = St l' (bottom F' k') /\
    xrun s (Some (St l (based F k fn fa k0 fs))) = Some (St l' (based F' k' fn fa k0 fs)).
Proof.
  revert l F k. induction s as [|c s IH]; intros l F k H.
  - injection H as <-. exists l, F, k. split; reflexivity.
  - cbn [xrun] in *. destruct (xstep (Some (St l (bottom F k))) c) as [s1|] eqn:E.
    + destruct (step_lift _ _ _ _ _ fn fa k0 fs E) as (l1 & F1 & k1 & -> & ->). now apply IH.
    + rewrite xrun_none in H. discriminate.
Qed.

(** Check of a literal run: it starts with a tag, and read on its own gives
    the nodes [ns] and no text at either end. *)
Definition frag_check (s : string) (ns : list node) : Prop :=
  sforall not_cr s = true /\
  (exists s', s = String "<" s') /\
  xrun s (Some (St (LText "") [Frame "" [] []])) = Some (St (LText "") [Frame "" [] (rev ns)]).

Fixpoint no_adj (l : list node) : bool :=
  match l with
  | Txt s :: ((Elem _ _ _ :: _) as l') => negb (String.eqb s "") && no_adj l'
  | Txt _ :: _ => false
  | Elem _ _ _ :: l' => no_adj l'
  | [] => true
  end.

Lemma acc_no_adj l b k : no_adj l = true -> (exists n a x l', l = Elem n a x :: l') ->
  acc l b k = ("", (rev l ++ fl b k)%list).
Proof.
  assert (G : forall l k, no_adj l = true -> acc l "" k = ("", (rev l ++ k)%list)).
  { clear. induction l as [|[n a x|s] l IH]; intros k H; [reflexivity| |].
    - cbn [acc]. rewrite IH by exact H. cbn [rev fl String.eqb]. now rewrite <- app_assoc.
    - destruct l as [|[n a x|s'] l]; try discriminate.
      cbn [no_adj] in H. apply andb_true_iff in H. destruct H as [H1 H2].
      change (acc (Txt s :: Elem n a x :: l) "" k) with (acc l "" (Elem n a x :: fl s k)).
      specialize (IH (fl s k) H2). change (acc (Elem n a x :: l) "" (fl s k)) with (acc l "" (Elem n a x :: fl s k)) in IH.
      rewrite IH. f_equal. unfold fl. apply negb_true_iff in H1. rewrite H1. cbn [rev]. now rewrite <- !app_assoc. }
  intros H (n & a & x & l' & ->). cbn [acc]. rewrite G by exact H. cbn [rev]. now rewrite <- app_assoc.
Qed.

Lemma frag_literal s ns : frag_check s ns -> no_adj ns = true -> (exists n a x l', ns = Elem n a x :: l') ->
  frag s ns.
Proof.
  intros (C & (s' & ->) & H) NA HE. split; [exact C|].
  intros b fn fa k fs. cbv zeta. rewrite acc_no_adj by assumption. cbn [fst snd].
  assert (E : xrun (String "<" s') (Some (St (LText b) (Frame fn fa k :: fs)))
              = xrun (String "<" s') (Some (St (LText "") (Frame fn fa (fl b k) :: fs)))).
  { cbn [xrun]. f_equal. unfold xstep. change (xml_char "<") with true. cbv iota.
    cbn [step1]. change (Ascii.eqb "<" "<") with true. cbv iota. rewrite !flush_fl. reflexivity. }
  rewrite E.
  change [Frame "" [] []] with (bottom [] []) in H.
  destruct (run_lift _ _ _ _ _ fn fa (fl b k) fs H) as (l' & F' & k' & E1 & E2).
  change (Frame fn fa (fl b k) :: fs) with (based [] [] fn fa (fl b k) fs). rewrite E2.
  injection E1 as <- E1. destruct F' as [|f F'].
  - injection E1 as <-. reflexivity.
  - destruct F'; discriminate E1.
Qed.

(** A literal run is read as the nodes computed by [lit_nodes]. *)
Definition lit_nodes (s : string) : list node :=
  match xrun s (Some (St (LText "") [Frame "" [] []])) with
  | Some (St (LText "") [Frame "" [] k]) => rev k
  | _ => []
  end.
Definition first_elem (l : list node) : bool := match l with Elem _ _ _ :: _ => true | _ => false end.
Definition lit_ok (s : string) : bool :=
  sforall not_cr s && starts_with "<" s &&
  match xrun s (Some (St (LText "") [Frame "" [] []])) with
  | Some (St (LText "") [Frame "" [] k]) => no_adj (rev k) && first_elem (rev k)
  | _ => false
  end.

Lemma lit_frag s : lit_ok s = true -> frag s (lit_nodes s).
Proof.
  unfold lit_ok, lit_nodes. rewrite !andb_true_iff. intros [[C S] H].
  destruct (xrun s _) as [[l F]|] eqn:E; [|discriminate].
  destruct l; try discriminate. destruct b; try discriminate.
  destruct F as [|[fn fa k] F]; try discriminate. destruct fn; try discriminate.
  destruct fa; try discriminate. destruct F; try discriminate.
  apply andb_true_iff in H. destruct H as [H1 H2].
  apply frag_literal.
  - split; [exact C|]. split.
    + apply starts_with_iff in S. destruct S as [t ->]. exists t. reflexivity.
    + rewrite E, rev_involutive. reflexivity.
  - exact H1.
  - destruct (rev k) as [|[n a x|t] l]; try discriminate. eauto.
Qed.

(** Digits. *)
Lemma dec_val n : sforall plain_val (dec n) = true.
Proof. apply (sforall_weaken is_digit); [apply digit_plain_val|apply dec_digits]. Qed.
Lemma decn_val n : sforall plain_val (decn n) = true.
Proof. apply dec_val. Qed.
Lemma dec_txt n : sforall plain_text (dec n) && sforall not_cr (dec n) = true.
Proof.
  rewrite (sforall_weaken is_digit plain_text), (sforall_weaken is_digit not_cr);
    auto using digit_plain_text, digit_not_cr, dec_digits.
Qed.
Lemma decn_txt n : sforall plain_text (decn n) && sforall not_cr (decn n) = true.
Proof. apply dec_txt. Qed.
