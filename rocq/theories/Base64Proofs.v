From Coq Require Import String Ascii List Bool Arith NArith Lia.
From Verif Require Import Str Base64Model Base64Spec.
Import ListNotations.
Open Scope string_scope.

(** ** Byte-level facts, by computation over all bytes *)
Definition all_bytes : list ascii := map (fun n => ascii_of_nat n) (seq 0 256).
Lemma all_bytes_in c : In c all_bytes.
Proof. apply in_map_iff. exists (nat_of_ascii c). split; [apply ascii_nat_embedding|]. apply in_seq. pose proof (nat_ascii_bounded c). lia. Qed.
Lemma by_bytes (p : ascii -> bool) : forallb p all_bytes = true -> forall c, p c = true.
Proof. intros H c. rewrite forallb_forall in H. apply H, all_bytes_in. Qed.
Lemma by_bytes2 (p : ascii -> ascii -> bool) : forallb (fun a => forallb (p a) all_bytes) all_bytes = true -> forall a b, p a b = true.
Proof. intros H a b. apply by_bytes. revert a. apply by_bytes, H. Qed.

Definition bit (k : nat) (c : ascii) : bool := nth k (bits_of_byte c) false.
Lemma e0_ok a : Ascii.eqb (enc_char (e0 (N_of_ascii a))) (b64_char (num [bit 0 a; bit 1 a; bit 2 a; bit 3 a; bit 4 a; bit 5 a])) = true.
Proof. revert a. apply by_bytes. vm_compute. reflexivity. Qed.
Lemma e1_ok a b : Ascii.eqb (enc_char (e1 (N_of_ascii a) (N_of_ascii b))) (b64_char (num [bit 6 a; bit 7 a; bit 0 b; bit 1 b; bit 2 b; bit 3 b])) = true.
Proof. revert a b. apply by_bytes2. vm_compute. reflexivity. Qed.
Lemma e2_ok a b : Ascii.eqb (enc_char (e2 (N_of_ascii a) (N_of_ascii b))) (b64_char (num [bit 4 a; bit 5 a; bit 6 a; bit 7 a; bit 0 b; bit 1 b])) = true.
Proof. revert a b. apply by_bytes2. vm_compute. reflexivity. Qed.
Lemma e3_ok a : Ascii.eqb (enc_char (e3 (N_of_ascii a))) (b64_char (num [bit 2 a; bit 3 a; bit 4 a; bit 5 a; bit 6 a; bit 7 a])) = true.
Proof. revert a. apply by_bytes. vm_compute. reflexivity. Qed.

Fixpoint str_ind3 (P : string -> Prop) (H0 : P "") (H1 : forall a, P (String a "")) (H2 : forall a b, P (String a (String b "")))
  (H3 : forall a b c s, P s -> P (String a (String b (String c s)))) (s : string) : P s :=
  match s with
  | "" => H0
  | String a "" => H1 a
  | String a (String b "") => H2 a b
  | String a (String b (String c s)) => H3 a b c s (str_ind3 P H0 H1 H2 H3 s)
  end.

Lemma mod4_add n : (4 + n) mod 4 = n mod 4.
Proof. replace (4 + n) with (n + 1 * 4) by lia. apply Nat.mod_add. lia. Qed.
Lemma encode_rfc s : base64_encode s = rfc4648 s.
Proof.
  induction s as [|a|a b|a b c s IH] using str_ind3.
  - reflexivity.
  - cbn [base64_encode]. rewrite (proj1 (Ascii.eqb_eq _ _) (e0_ok a)).
    pose proof (proj1 (Ascii.eqb_eq _ _) (e1_ok a "000")) as X. change (N_of_ascii "000") with 0%N in X. rewrite X. now destruct a.
  - cbn [base64_encode]. rewrite (proj1 (Ascii.eqb_eq _ _) (e0_ok a)), (proj1 (Ascii.eqb_eq _ _) (e1_ok a b)).
    pose proof (proj1 (Ascii.eqb_eq _ _) (e2_ok b "000")) as X. change (N_of_ascii "000") with 0%N in X. rewrite X. now destruct a, b.
  - cbn [base64_encode]. rewrite IH, (proj1 (Ascii.eqb_eq _ _) (e0_ok a)), (proj1 (Ascii.eqb_eq _ _) (e1_ok a b)),
      (proj1 (Ascii.eqb_eq _ _) (e2_ok b c)), (proj1 (Ascii.eqb_eq _ _) (e3_ok c)).
    destruct a, b, c. unfold rfc4648. cbn [bits bits_of_byte app sextets String.length].
    set (t := sextets (bits s)). change (S (S (S (S (String.length t))))) with (4 + String.length t). rewrite mod4_add. reflexivity.
Qed.

(** ** Decoding *)
Definition group_ok (s : string) (t : string) : Prop := dec_groups s = Some t.
Definition sx (n : N) : bool := (n <? 64)%N.
Definition all_sx : list N := map N.of_nat (seq 0 64).
Lemma all_sx_in n : (n < 64)%N -> In n all_sx.
Proof. intros H. apply in_map_iff. exists (N.to_nat n). split; [apply N2Nat.id|]. apply in_seq. lia. Qed.
Lemma dec_enc n : (n < 64)%N -> dec_char (enc_char n) = Some (n, false).
Proof.
  intros H. assert (G : forallb (fun n => match dec_char (enc_char n) with Some (m, false) => (m =? n)%N | _ => false end) all_sx = true) by (vm_compute; reflexivity).
  rewrite forallb_forall in G. specialize (G n (all_sx_in n H)). destruct (dec_char (enc_char n)) as [[m []]|]; try discriminate.
  apply N.eqb_eq in G. now subst.
Qed.
Lemma e0_lt a : (e0 (N_of_ascii a) < 64)%N.
Proof. apply N.ltb_lt. revert a. apply by_bytes. vm_compute. reflexivity. Qed.
Lemma e1_lt a b : (e1 (N_of_ascii a) (N_of_ascii b) < 64)%N.
Proof. apply N.ltb_lt. revert a b. apply by_bytes2. vm_compute. reflexivity. Qed.
Lemma e2_lt a b : (e2 (N_of_ascii a) (N_of_ascii b) < 64)%N.
Proof. apply N.ltb_lt. revert a b. apply by_bytes2. vm_compute. reflexivity. Qed.
Lemma e3_lt a : (e3 (N_of_ascii a) < 64)%N.
Proof. apply N.ltb_lt. revert a. apply by_bytes. vm_compute. reflexivity. Qed.
Lemma back0 a b : ascii_of_N (N.lor (shl8 (e0 (N_of_ascii a)) 2) (N.shiftr (e1 (N_of_ascii a) (N_of_ascii b)) 4)) = a.
Proof. apply Ascii.eqb_eq. revert a b. apply by_bytes2. vm_compute. reflexivity. Qed.
Definition back1_f (a b c : ascii) : bool :=
  Ascii.eqb (ascii_of_N (N.lor (shl8 (e1 (N_of_ascii a) (N_of_ascii b)) 4) (N.shiftr (e2 (N_of_ascii b) (N_of_ascii c)) 2))) b.
Lemma e1_split a b : e1 (N_of_ascii a) (N_of_ascii b) = (N.land (N_of_ascii a) 3 * 16 + N.shiftr (N_of_ascii b) 4)%N.
Proof. apply N.eqb_eq. revert a b. apply by_bytes2. vm_compute. reflexivity. Qed.
Lemma e2_split a b : e2 (N_of_ascii a) (N_of_ascii b) = (N.land (N_of_ascii a) 15 * 4 + N.shiftr (N_of_ascii b) 6)%N.
Proof. apply N.eqb_eq. revert a b. apply by_bytes2. vm_compute. reflexivity. Qed.
Lemma shl8_e1 a b : shl8 (e1 (N_of_ascii a) (N_of_ascii b)) 4 = shl8 (N.shiftr (N_of_ascii b) 4) 4.
Proof. apply N.eqb_eq. revert a b. apply by_bytes2. vm_compute. reflexivity. Qed.
Lemma shr_e2 a b : N.shiftr (e2 (N_of_ascii a) (N_of_ascii b)) 2 = N.land (N_of_ascii a) 15.
Proof. apply N.eqb_eq. revert a b. apply by_bytes2. vm_compute. reflexivity. Qed.
Lemma back1 a b c : ascii_of_N (N.lor (shl8 (e1 (N_of_ascii a) (N_of_ascii b)) 4) (N.shiftr (e2 (N_of_ascii b) (N_of_ascii c)) 2)) = b.
Proof. rewrite shl8_e1, shr_e2. apply Ascii.eqb_eq. revert b. apply by_bytes. vm_compute. reflexivity. Qed.
Lemma back2 b c : ascii_of_N (N.lor (shl8 (e2 (N_of_ascii b) (N_of_ascii c)) 6) (e3 (N_of_ascii c))) = c.
Proof. apply Ascii.eqb_eq. revert b c. apply by_bytes2. vm_compute. reflexivity. Qed.

Lemma e1_lt0 a : (e1 (N_of_ascii a) 0 < 64)%N.
Proof. exact (e1_lt a "000"). Qed.
Lemma e2_lt0 a : (e2 (N_of_ascii a) 0 < 64)%N.
Proof. exact (e2_lt a "000"). Qed.
Lemma back00 a : ascii_of_N (N.lor (shl8 (e0 (N_of_ascii a)) 2) (N.shiftr (e1 (N_of_ascii a) 0) 4)) = a.
Proof. exact (back0 a "000"). Qed.
Lemma back10 a b : ascii_of_N (N.lor (shl8 (e1 (N_of_ascii a) (N_of_ascii b)) 4) (N.shiftr (e2 (N_of_ascii b) 0) 2)) = b.
Proof. exact (back1 a b "000"). Qed.
Lemma decode_encode s : dec_groups (base64_encode s) = Some s.
Proof.
  induction s as [|a|a b|a b c s IH] using str_ind3.
  - reflexivity.
  - cbn [base64_encode dec_groups]. unfold dec_group, dec_opt. rewrite (dec_enc _ (e0_lt a)), (dec_enc _ (e1_lt0 a)).
    cbn [dec_char Ascii.eqb Bool.eqb pad1 Nat.add Nat.ltb Nat.leb append]. rewrite (back00 a). reflexivity.
  - cbn [base64_encode dec_groups]. unfold dec_group, dec_opt. rewrite (dec_enc _ (e0_lt a)), (dec_enc _ (e1_lt a b)), (dec_enc _ (e2_lt0 b)).
    cbn [dec_char Ascii.eqb Bool.eqb pad1 Nat.add Nat.ltb Nat.leb append]. rewrite (back0 a b), (back10 a b). reflexivity.
  - cbn [base64_encode dec_groups]. rewrite IH. unfold dec_group, dec_opt.
    rewrite (dec_enc _ (e0_lt a)), (dec_enc _ (e1_lt a b)), (dec_enc _ (e2_lt b c)), (dec_enc _ (e3_lt c)).
    cbn [pad1 Nat.add Nat.ltb Nat.leb append]. now rewrite back0, back1, back2.
Qed.

(** ** Shape of the output and white space *)
Definition b64_out (c : ascii) : bool :=
  let n := N_of_ascii c in
  ((65 <=? n) && (n <=? 90) || (97 <=? n) && (n <=? 122) || (48 <=? n) && (n <=? 57) || (n =? 43) || (n =? 47) || (n =? 61))%N.
Lemma enc_out n : (n < 64)%N -> b64_out (enc_char n) = true.
Proof.
  intros H. assert (G : forallb (fun n => b64_out (enc_char n)) all_sx = true) by (vm_compute; reflexivity).
  rewrite forallb_forall in G. exact (G n (all_sx_in n H)).
Qed.
Lemma encode_out s : sforall b64_out (base64_encode s) = true.
Proof.
  induction s as [|a|a b|a b c s IH] using str_ind3; [reflexivity|..]; cbn [base64_encode sforall].
  - rewrite (enc_out _ (e0_lt a)), (enc_out _ (e1_lt0 a)). reflexivity.
  - rewrite (enc_out _ (e0_lt a)), (enc_out _ (e1_lt a b)), (enc_out _ (e2_lt0 b)). reflexivity.
  - rewrite (enc_out _ (e0_lt a)), (enc_out _ (e1_lt a b)), (enc_out _ (e2_lt b c)), (enc_out _ (e3_lt c)). exact IH.
Qed.
Lemma div3_add n : (3 + n + 2) / 3 = S ((n + 2) / 3).
Proof. replace (3 + n + 2) with (n + 2 + 1 * 3) by lia. rewrite Nat.div_add by lia. lia. Qed.
Lemma encode_length s : String.length (base64_encode s) = 4 * ((String.length s + 2) / 3).
Proof.
  induction s as [|a|a b|a b c s IH] using str_ind3; [reflexivity..|]. cbn [base64_encode String.length].
  change (S (S (S (String.length s)))) with (3 + String.length s). rewrite div3_add, IH. lia.
Qed.

Lemma filter_trim_start p q s : (forall c, p c = true -> q c = false) -> sfilter q (trim_start_by p s) = sfilter q s.
Proof. intros H. induction s as [|c s IH]; [reflexivity|]. cbn [trim_start_by]. destruct (p c) eqn:E; [|reflexivity]. cbn [sfilter]. now rewrite (H c E). Qed.
Lemma sfilter_app q s t : sfilter q (s ++ t) = sfilter q s ++ sfilter q t.
Proof. induction s as [|c s IH]; [reflexivity|]. cbn [append sfilter]. destruct (q c); cbn [append]; now rewrite IH. Qed.
Lemma filter_srev q s : sfilter q (srev s) = srev (sfilter q s).
Proof.
  induction s as [|c s IH]; [reflexivity|]. rewrite srev_cons, sfilter_app, IH. cbn [sfilter]. unfold s1. cbn [sfilter].
  destruct (q c); [now rewrite srev_cons|apply sapp_nil_r].
Qed.
(** Trimming removes only leading and trailing characters; with all remaining
    characters outside [p] or in the gaps, filtering the gaps sees the same. *)
Lemma trim_gap s : (sforall (fun c => implb (is_ws c) (is_gap c)) s = true) ->
  sfilter (fun c => negb (is_gap c)) (trim s) = sfilter (fun c => negb (is_gap c)) s.
Proof.
  intros H.
  assert (A : forall t, sforall (fun c => implb (is_ws c) (is_gap c)) t = true ->
    sfilter (fun c => negb (is_gap c)) (trim_start_by is_ws t) = sfilter (fun c => negb (is_gap c)) t /\
    sforall (fun c => implb (is_ws c) (is_gap c)) (trim_start_by is_ws t) = true).
  { induction t as [|c t IH]; [split; reflexivity|]. cbn [sforall trim_start_by]. intros E. apply andb_true_iff in E. destruct E as [E1 E2].
    destruct (is_ws c) eqn:W; cbn [implb] in E1.
    - cbn [sfilter]. rewrite E1. cbn [negb]. now apply IH.
    - split; [reflexivity|]. cbn [sforall]. rewrite W, E2. reflexivity. }
  assert (R : forall p t, sforall p (srev t) = sforall p t).
  { intros p t. induction t as [|c t IH]; [reflexivity|]. rewrite srev_cons, sforall_app, IH. cbn. now rewrite andb_true_r, andb_comm. }
  unfold trim, trim_end_by. rewrite filter_srev. destruct (A s H) as [A1 A2].
  rewrite (proj1 (A (srev (trim_start_by is_ws s)) ltac:(now rewrite R))). rewrite filter_srev, srev_involutive. exact A1.
Qed.
Lemma out_not_ws c : b64_out c = true -> is_ws c = false.
Proof. destruct c as [[] [] [] [] [] [] [] []]; vm_compute; auto. Qed.

Lemma decode_with_gaps b s : sfilter (fun c => negb (is_gap c)) s = base64_encode b -> base64_decode s = Some b.
Proof.
  intros H. unfold base64_decode. rewrite trim_gap, H; [apply decode_encode|].
  pose proof (encode_out b) as O. rewrite <- H in O. clear H. induction s as [|c s IH]; [reflexivity|]. cbn [sfilter sforall] in *.
  destruct (is_gap c) eqn:G; cbn [negb] in O.
  - rewrite IH by exact O. now destruct (is_ws c).
  - cbn [sforall] in O. apply andb_true_iff in O. destruct O as [O1 O2]. rewrite (out_not_ws c O1), IH by exact O2. reflexivity.
Qed.
