(** Proofs about signature and ink parts. *)
From Coq Require Import String Ascii List Bool Arith NArith ZArith Lia DecimalString DecimalN.
From Verif Require Import Str StrRefl Num EscapeModel EscapeProofs XmlSpec XmlProofs XmlTpl OpcSpec GenProofs PresProofs TplRead XmlPath PathRead SlideModel MdProofs SettingsModel SettingsSpec ShowProofs.
Import ListNotations.
Open Scope nat_scope.
Open Scope string_scope.

(** ** Signatures *)
Definition comT (c : option string) : list tpl := match c with Some c => [TE "SignatureComments" [] [TT [Esc c]]] | None => [] end.
Definition sign_date (g : signature) : string := match sn_date g with Some d => d | None => "2025-01-01T00:00:00Z" end.
Definition signF (g : signature) (com : list tpl) : tpl :=
  TE "Signature" [("xmlns", [Lit "http://www.w3.org/2000/09/xmldsig#"])]
    [TE "SignedInfo" [] [TS "CanonicalizationMethod" [("Algorithm", [Lit "http://www.w3.org/TR/2001/REC-xml-c14n-20010315"])]; TS "SignatureMethod" [("Algorithm", [Lit (hash_uri (sn_hash g))])]];
     TS "SignatureValue" [];
     TE "KeyInfo" [] [TE "KeyName" [] [TT [Esc (sg_name (sn_signer g))]]];
     TE "Object" [] [TE "SignatureProperties" [] [TE "SignatureProperty" [("Target", [Lit "#SignatureInfo"])]
       [TE "SignatureInfoV1" [("xmlns", [Lit "http://schemas.microsoft.com/office/2006/digsig"])]
         ([TS "SetupID" []; TE "SignatureText" [] [TT [Esc (sg_name (sn_signer g))]]] ++ com
          ++ [TE "SignatureType" [] [TT [Lit "1"]]; TS "SignatureProviderUrl" []; TE "SignatureProviderDetails" [] [TT [Lit "9"]];
              TE "ManifestHashAlgorithm" [] [TT [Lit (hash_uri (sn_hash g))]]; TE "SignatureProviderId" [] [TT [Lit "{{00000000-0000-0000-0000-000000000000}}"]];
              TE "CommitmentTypeId" [] [TT [Lit (commitment_uri (sn_commitment g))]]; TE "CommitmentTypeQualifier" [] [TT [Lit (commitment_label (sn_commitment g))]];
              TE "SigningTime" [] [TT [Lit (sign_date g)]]])%list]]]].
Definition signT (g : signature) : tpl := signF g (comT (sn_comments g)).

Lemma signT_str g : decl ++ "" ++ tstr (signT g) = signature_xml g.
Proof.
  unfold signT, signature_xml, signF. cbv zeta. fold (sign_date g). rewrite !chained_escape_eq. destruct (sn_comments g) as [c|]; cbn [comT app]; rewrite ?chained_escape_eq;  cbn [tstr tstrs map sconcat fold_right attrs_raw araw raws praw fst snd];  unfold tstrs, attrs_raw, araw, raws, xmlns_rels;  cbn [tstr map sconcat fold_right praw fst snd app]; str_refl.
Qed.
Definition opt_all {A} (ok : A -> bool) (o : option A) : bool := match o with Some x => ok x | None => true end.
Definition date_char (c : ascii) : bool := plain_text c && not_cr c.
Definition sign_ok (g : signature) : bool := text_ok (sg_name (sn_signer g)) && opt_all text_ok (sn_comments g) && opt_all (sforall date_char) (sn_date g).
Lemma signT_tok g : sign_ok g = true -> tok (signT g).
Proof.
  unfold sign_ok. rewrite !andb_true_iff. intros [[N C] D]. unfold signT, signF.
  assert (U1 : sforall plain_val (hash_uri (sn_hash g)) = true) by now destruct (sn_hash g).
  assert (U2 : sforall plain_text (hash_uri (sn_hash g)) && sforall not_cr (hash_uri (sn_hash g)) = true) by now destruct (sn_hash g).
  assert (U3 : sforall plain_text (commitment_uri (sn_commitment g)) && sforall not_cr (commitment_uri (sn_commitment g)) = true) by now destruct (sn_commitment g).
  assert (U4 : sforall plain_text (commitment_label (sn_commitment g)) && sforall not_cr (commitment_label (sn_commitment g)) = true) by now destruct (sn_commitment g).
  assert (U5 : sforall plain_text (sign_date g) && sforall not_cr (sign_date g) = true).
  { unfold sign_date. destruct (sn_date g) as [d|]; [|reflexivity]. cbn [opt_all] in D. clear -D. induction d as [|c d IH]; [reflexivity|].
    cbn [sforall] in D. unfold date_char in D at 1. rewrite !andb_true_iff in D. specialize (IH (proj2 D)). apply andb_true_iff in IH. cbn [sforall]. rewrite (proj1 (proj1 D)), (proj2 (proj1 D)), (proj1 IH), (proj2 IH). reflexivity. }
  generalize dependent (hash_uri (sn_hash g)). generalize dependent (commitment_uri (sn_commitment g)). generalize dependent (commitment_label (sn_commitment g)). generalize dependent (sign_date g).
  intros d D' l L u U h H1 H2. destruct (sn_comments g) as [c|]; cbn [comT app]; cbn [opt_all] in C; toks_solve.
  all: match goal with H : (sforall plain_text ?v && sforall not_cr ?v)%bool = true |- sforall _ ?v = true => apply andb_true_iff in H; apply H end.
Qed.
Lemma sign_read g : sign_ok g = true -> xml_read (signature_xml g) = Some (tnode (signT g)).
Proof. intros H. rewrite <- signT_str. apply read_node; [reflexivity..|]. now apply signT_tok. Qed.
Lemma sign_says g : let x := tnode (signT g) in
  key_name x = [sg_name (sn_signer g)] /\ signature_info x "SignatureText" = [sg_name (sn_signer g)]
  /\ signature_info x "SignatureComments" = match sn_comments g with Some c => [c] | None => [] end
  /\ signature_info x "CommitmentTypeId" = [commitment_uri (sn_commitment g)] /\ signature_info x "CommitmentTypeQualifier" = [commitment_label (sn_commitment g)]
  /\ signature_info x "SigningTime" = [sign_date g] /\ signature_info x "ManifestHashAlgorithm" = [hash_uri (sn_hash g)] /\ signature_method x = [hash_uri (sn_hash g)].
Proof.
  cbv zeta. unfold key_name, signature_info, signature_method, signT, signF. destruct (sn_comments g) as [c|]; cbn [comT app].
  all: repeat split; pread; cbn [map]; rewrite ?text_leaf; cbn; rewrite ?sapp_nil_r; reflexivity.
Qed.

(** ** Numerals *)
Lemma digits_acc d p : digits_from (Zpos p) (NilEmpty.string_of_uint d) = Some (Zpos (Pos.of_uint_acc d p)).
Proof. revert p. induction d as [|d IH|d IH|d IH|d IH|d IH|d IH|d IH|d IH|d IH|d IH]; intros p; [reflexivity|..]; cbn [NilEmpty.string_of_uint digits_from Pos.of_uint_acc];
  (match goal with |- context [digit_value ?c] => let v := eval vm_compute in (digit_value c) in change (digit_value c) with v end); cbv iota; rewrite <- IH; f_equal; lia. Qed.
Lemma digits_uint d : digits_from 0 (NilEmpty.string_of_uint d) = Some (Z.of_N (N.of_uint d)).
Proof.
  unfold N.of_uint. induction d as [|d IH|d IH|d IH|d IH|d IH|d IH|d IH|d IH|d IH|d IH]; [reflexivity|exact IH|..]; cbn [NilEmpty.string_of_uint Pos.of_uint Z.of_N]; rewrite <- digits_acc; reflexivity.
Qed.
Lemma digits_dec n : digits_from 0 (dec n) = Some (Z.of_N n).
Proof. unfold dec. rewrite digits_uint. now rewrite DecimalN.Unsigned.of_to. Qed.
Lemma integer_dec n : integer (dec n) = Some (Z.of_N n).
Proof.
  unfold integer. destruct (dec n) as [|c s] eqn:E; [now apply dec_nonempty in E|]. pose proof (dec_head n c s E) as C. rewrite <- E, <- digits_dec.
  destruct c as [[] [] [] [] [] [] [] []]; try discriminate; rewrite E; reflexivity.
Qed.
Lemma integer_z z : integer (dec_z z) = Some z.
Proof.
  destruct z as [|p|p]; [reflexivity|apply (integer_dec (Npos p))|]. cbn [dec_z append]. unfold integer. destruct (dec (Npos p)) as [|c s] eqn:E; [now apply dec_nonempty in E|].
  rewrite <- E, digits_dec. reflexivity.
Qed.

(** ** Ink *)
Definition brushA (i : nat) (s : stroke) : list (string * list piece) :=
  ([("id", [Lit "br"; Lit (decn i)]); ("color", [Lit "#"; Lit (pn_color (sk_pen s))]); ("width", [Lit (dec (pn_width (sk_pen s)))]); ("tip", [Lit (tip_xml (pn_tip (sk_pen s)))])]
   ++ match pn_transparency (sk_pen s) with Some t => [("transparency", [Lit t])] | None => [] end)%list.
Definition brush_text (i : nat) (s : stroke) : string := "<ink:brush" ++ attrs_raw (brushA i s) ++ " />".
Definition brushT (i : nat) (s : stroke) : list tpl := [TC (brush_text i s) [Elem "ink:brush" (attrs_val (brushA i s)) []]; nlT].
Definition traceT (i : nat) (s : stroke) : list tpl :=
  [TE "ink:trace" [("contextRef", [Lit "#"; Lit (decn i)]); ("brushRef", [Lit "#br"; Lit (decn i)]); ("id", [Lit (decn i)])] [TT [Lit (points_str (sk_points s))]]].
Fixpoint overT (f : nat -> stroke -> list tpl) (k : nat) (l : list stroke) : list tpl :=
  match l with [] => [] | x :: l => (f k x ++ overT f (S k) l)%list end.
Definition inkT (l : list stroke) : tpl := TE "ink:ink" [("xmlns:ink", [Lit "http://www.w3.org/2003/InkML"])] (overT brushT 0 l ++ overT traceT 0 l)%list.
Lemma overT_str f g k l : (forall i s, tstrs (f i s) = g i s) -> tstrs (overT f k l) = over g k l.
Proof. intros H. revert k. induction l as [|s l IH]; intros k; [reflexivity|]. cbn [overT over]. now rewrite tstrs_app, H, IH. Qed.
Lemma brushT_str i s : tstrs (brushT i s) = brush_xml i s.
Proof. unfold brushT, brush_xml, brush_text, brushA, nlT. cbv zeta. destruct (pn_transparency (sk_pen s)); cbn [app]; tstr_eq. Qed.
Lemma traceT_str i s : tstrs (traceT i s) = trace_xml i s.
Proof. unfold traceT, trace_xml. tstr_eq. Qed.
Lemma inkT_str l : l <> [] -> decl ++ nl ++ tstr (inkT l) = ink_part_xml l.
Proof.
  intros H. unfold ink_part_xml. destruct l as [|s l]; [congruence|]. clear H. set (k := s :: l). unfold inkT. cbn [tstr]. fold (tstrs (overT brushT 0 k ++ overT traceT 0 k)).
  rewrite tstrs_app, (overT_str _ _ _ _ brushT_str), (overT_str _ _ _ _ traceT_str). generalize (over brush_xml 0 k) (over trace_xml 0 k). intros. tstr_eq.
Qed.
(** A start tag closed by a space, a slash and a bracket. *)
Lemma frag_spaced n a : is_name n = true -> tattrs_ok a = true -> frag ("<" ++ n ++ attrs_raw a ++ " />") [Elem n (attrs_val a) []].
Proof.
  intros Hn Ha. split.
  { rewrite !sforall_app, tattrs_not_cr, (is_name_not_cr n) by assumption. reflexivity. }
  intros b fn fa k fs. rewrite <- sapp_assoc, <- sapp_assoc. rewrite (xrun_app _ " />"). rewrite sapp_assoc, xrun_tstart by assumption. rewrite flush_fl.
  destruct (attrs_val a); reflexivity.
Qed.
Definition pen_fine (p : pen) : bool := sforall plain_val (pn_color p) && opt_all (sforall plain_val) (pn_transparency p).
Lemma brushA_ok i s : pen_fine (sk_pen s) = true -> tattrs_ok (brushA i s) = true.
Proof.
  unfold pen_fine. rewrite andb_true_iff. intros [C T]. unfold brushA. assert (P : sforall plain_val (tip_xml (pn_tip (sk_pen s))) = true) by now destruct (pn_tip (sk_pen s)).
  unfold tattrs_ok. pose proof (dec_val (pn_width (sk_pen s))) as W. pose proof (decn_val i) as I.
  destruct (pn_transparency (sk_pen s)) as [t|]; cbn [app]; (apply andb_true_iff; split; [reflexivity|]); cbn [forallb fst snd pv_ok opt_all] in *; rewrite ?C, ?T, ?P, ?W, ?I; reflexivity.
Qed.
Lemma dec_z_plain z : sforall date_char (dec_z z) = true.
Proof.
  assert (D : forall n, sforall date_char (dec n) = true).
  { intros n. pose proof (dec_txt n) as H. apply andb_true_iff in H. destruct H as [A B]. revert A B. generalize (dec n). intros s. induction s as [|c s IH]; [reflexivity|]. cbn [sforall]. rewrite !andb_true_iff.
    intros [A1 A2] [B1 B2]. split; [unfold date_char; now rewrite A1, B1|now apply IH]. }
  destruct z as [|p|p]; [reflexivity|apply D|]. cbn [dec_z append sforall]. rewrite D. reflexivity.
Qed.
Lemma points_plain l : sforall date_char (points_str l) = true.
Proof.
  unfold points_str. induction l as [|p l IH]; [reflexivity|]. cbn [map sjoin]. destruct l as [|q l].
  - cbn [map]. rewrite !sforall_app, !dec_z_plain. reflexivity.
  - cbn [map] in *. rewrite !sforall_app, !dec_z_plain. rewrite IH. reflexivity.
Qed.
Lemma date_split s : sforall date_char s = true -> (sforall plain_text s && sforall not_cr s)%bool = true.
Proof. induction s as [|c s IH]; [reflexivity|]. cbn [sforall]. unfold date_char at 1. rewrite !andb_true_iff. intros [[A B] C]. specialize (IH C). apply andb_true_iff in IH. tauto. Qed.
Definition strokes_ok (l : list stroke) : bool := forallb (fun s => pen_fine (sk_pen s)) l.
Lemma inkT_tok l : strokes_ok l = true -> tok (inkT l).
Proof.
  intros H. unfold inkT. apply tok_TE; [reflexivity..|]. apply toks_app_i.
  - generalize 0. induction l as [|s l IH]; intros k; [exact I|]. cbn [strokes_ok forallb] in H. apply andb_true_iff in H. cbn [overT]. apply toks_app_i; [|now apply IH].
    unfold brushT. split; [cbn [tok]; apply frag_spaced; [reflexivity|now apply brushA_ok]|]. split; [apply nlT_tok|exact I].
  - clear H. generalize 0. induction l as [|s l IH]; intros k; [exact I|]. cbn [overT]. apply toks_app_i; [|apply IH]. unfold traceT.
    split; [|exact I]. apply tok_TE; [reflexivity| |].
    + unfold tattrs_ok. cbn [forallb fst snd pv_ok]. rewrite !decn_val. reflexivity.
    + split; [|exact I]. cbn [tok forallb pt_ok]. rewrite date_split by apply points_plain. reflexivity.
Qed.
Lemma ink_read l : l <> [] -> strokes_ok l = true -> xml_read (ink_part_xml l) = Some (tnode (inkT l)).
Proof. intros N H. rewrite <- inkT_str by exact N. apply read_node; [reflexivity..|]. now apply inkT_tok. Qed.

Lemma brushes_of l k : named "ink:brush" (tsnodes (overT brushT k l)) = map (fun p => Elem "ink:brush" (attrs_val (brushA (fst p) (snd p))) []) (combine (seq k (length l)) l).
Proof.
  revert k. induction l as [|s l IH]; intros k; [reflexivity|]. cbn [overT length seq combine map]. rewrite tsnodes_named_app, IH. reflexivity.
Qed.
Lemma traces_of l k : named "ink:trace" (tsnodes (overT traceT k l)) = map (fun p => tnode (hd nlT (traceT (fst p) (snd p)))) (combine (seq k (length l)) l).
Proof.
  revert k. induction l as [|s l IH]; intros k; [reflexivity|]. cbn [overT length seq combine map]. rewrite tsnodes_named_app, IH. unfold traceT. rewrite named_list by reflexivity. reflexivity.
Qed.
Lemma no_traces l k : named "ink:trace" (tsnodes (overT brushT k l)) = [].
Proof. revert k. induction l as [|s l IH]; intros k; [reflexivity|]. cbn [overT]. rewrite tsnodes_named_app, IH. reflexivity. Qed.
Lemma no_brushes l k : named "ink:brush" (tsnodes (overT traceT k l)) = [].
Proof. revert k. induction l as [|s l IH]; intros k; [reflexivity|]. cbn [overT]. rewrite tsnodes_named_app, IH. unfold traceT. rewrite named_list by reflexivity. reflexivity. Qed.
Lemma ink_brushes l : brushes (tnode (inkT l)) = map (fun p => Elem "ink:brush" (attrs_val (brushA (fst p) (snd p))) []) (combine (seq 0 (length l)) l).
Proof. unfold brushes. rewrite path_one, named_children. unfold inkT. cbn [tbody]. rewrite tsnodes_named_app, no_brushes, app_nil_r. apply brushes_of. Qed.
Lemma ink_traces l : traces (tnode (inkT l)) = map (fun p => tnode (hd nlT (traceT (fst p) (snd p)))) (combine (seq 0 (length l)) l).
Proof. unfold traces. rewrite path_one, named_children. unfold inkT. cbn [tbody]. rewrite tsnodes_named_app, no_traces. apply traces_of. Qed.
Lemma combine_seq_nth {A} (l : list A) k i x : nth_error l i = Some x -> nth_error (combine (seq k (length l)) l) i = Some (k + i, x).
Proof.
  revert k i. induction l as [|y l IH]; intros k [|i] H; try discriminate; cbn [length seq combine nth_error] in *.
  - injection H as ->. now rewrite Nat.add_0_r.
  - rewrite (IH (S k) i H). do 2 f_equal. lia.
Qed.
Lemma brush_id i s : attr "id" (Elem "ink:brush" (attrs_val (brushA i s)) []) = "br" ++ decn i.
Proof. unfold brushA. destruct (pn_transparency (sk_pen s)); cbn; now rewrite ?sapp_nil_r. Qed.
Lemma find_first {A} (f : A -> bool) l i x : nth_error l i = Some x -> f x = true -> (forall j y, j < i -> nth_error l j = Some y -> f y = false) -> find f l = Some x.
Proof.
  revert i. induction l as [|y l IH]; intros [|i] H F N; try discriminate; cbn [nth_error find] in *.
  - injection H as ->. now rewrite F.
  - rewrite (N 0 y) by (lia || reflexivity). apply (IH i H F). intros j z J Z. apply (N (S j) z); [lia|exact Z].
Qed.
Lemma words_join l : Forall (fun w => w <> "" /\ sforall (fun x => negb (Ascii.eqb x " ")) w = true) l -> words (sjoin " " l) = l.
Proof.
  unfold words. induction l as [|w l IH]; intros H; [reflexivity|]. inversion H as [|? ? [W1 W2] R]; subst.
  assert (B : negb (w =? "") = true) by (destruct w; [congruence|reflexivity]).
  destruct l as [|v l].
  - cbn [sjoin]. rewrite MdProofs.split_char_none by exact W2. cbn [filter]. now rewrite B.
  - change (sjoin " " (w :: v :: l)) with (w ++ String " " (sjoin " " (v :: l))). rewrite MdProofs.split_char_app, filter_app, IH by exact R.
    rewrite MdProofs.split_char_none by exact W2. cbn [filter]. now rewrite B.
Qed.
Definition two (p : Z * Z) : list string := [dec_z (fst p); dec_z (snd p)].
Lemma dec_z_word z : dec_z z <> "" /\ sforall (fun x => negb (Ascii.eqb x " ")) (dec_z z) = true.
Proof.
  assert (D : forall n, sforall (fun x => negb (Ascii.eqb x " ")) (dec n) = true).
  { intros n. generalize (dec_digits n). apply sforall_weaken. intros c H. destruct (Ascii.eqb_spec c " ") as [->|]; [discriminate|reflexivity]. }
  destruct z as [|p|p]; [split; [discriminate|reflexivity]|split; [apply dec_nonempty|apply D]|]. split; [discriminate|]. cbn [dec_z append sforall]. now rewrite D.
Qed.
Lemma points_words l : points_str l = sjoin " " (flat_map two l).
Proof.
  unfold points_str. induction l as [|p l IH]; [reflexivity|]. cbn [map flat_map two]. destruct l as [|q l].
  - cbn. reflexivity.
  - cbn [map flat_map two app] in *. change (sjoin " " (?a :: ?b :: ?r)) with (a ++ " " ++ sjoin " " (b :: r)). rewrite IH. cbn [sjoin append]. now rewrite !sapp_assoc.
Qed.
Lemma points_read l : pairs_of (map integer (words (points_str l))) = Some l.
Proof.
  rewrite points_words, words_join.
  - induction l as [|[a b] l IH]; [reflexivity|]. cbn [flat_map two app map fst snd]. rewrite !integer_z. cbn [pairs_of]. now rewrite IH.
  - induction l as [|[a b] l IH]; [constructor|]. cbn [flat_map two app fst snd]. repeat constructor; try apply dec_z_word. exact IH.
Qed.
Lemma ink_stroke l i s : nth_error l i = Some s -> exists t b, nth_error (traces (tnode (inkT l))) i = Some t /\ brush_of (tnode (inkT l)) t = Some b
  /\ attr "color" b = "#" ++ pn_color (sk_pen s) /\ attr "width" b = dec (pn_width (sk_pen s)) /\ attr "tip" b = tip_xml (pn_tip (sk_pen s)) /\ attr_opt "transparency" b = pn_transparency (sk_pen s)
  /\ trace_points t = Some (sk_points s).
Proof.
  intros H. pose proof (combine_seq_nth l 0 i s H) as C. cbn [Nat.add] in C.
  exists (tnode (hd nlT (traceT i s))), (Elem "ink:brush" (attrs_val (brushA i s)) []). split; [rewrite ink_traces; exact (map_nth_error _ _ _ C)|]. split.
  - unfold brush_of. rewrite ink_brushes. apply (find_first _ _ i); [exact (map_nth_error _ _ _ C)| |].
    + rewrite brush_id. apply String.eqb_eq. cbn. now rewrite sapp_nil_r.
    + intros j y J Y. rewrite nth_error_map in Y. destruct (nth_error (combine _ l) j) as [[k z]|] eqn:E; [|discriminate].
      assert (Y' : y = Elem "ink:brush" (attrs_val (brushA k z)) []) by (cbn [option_map fst snd] in Y; congruence). subst y. clear Y.
      assert (K : k = j).
      { destruct (nth_error l j) as [w|] eqn:W; [|apply nth_error_None in W; assert (j < length l) by (apply Nat.lt_trans with i; [exact J|apply nth_error_Some; congruence]); lia].
        pose proof (combine_seq_nth l 0 j w W) as Q. rewrite E in Q. now injection Q. }
      subst k. cbn [fst snd]. rewrite brush_id. apply String.eqb_neq. cbn. rewrite sapp_nil_r. intros Q. injection Q as Q. apply decn_inj in Q. lia.
  - unfold brushA. split; [|split; [|split; [|split]]].
    1-4: destruct (pn_transparency (sk_pen s)) as [t|]; cbn; now rewrite ?sapp_nil_r.
    unfold trace_points. cbn [traceT hd]. rewrite text_leaf. cbn [vals map pval sconcat fold_right]. rewrite sapp_nil_r. apply points_read.
Qed.
Lemma ink_count l : length (brushes (tnode (inkT l))) = length l /\ length (traces (tnode (inkT l))) = length l.
Proof. rewrite ink_brushes, ink_traces, !map_length, combine_length, seq_length. lia. Qed.
