From Coq Require Import String Ascii List Bool Arith NArith Lia.
From Verif Require Import Str StrRefl Num EscapeModel EscapeProofs XmlSpec XmlProofs XmlTpl OpcSpec GenProofs TplRead XmlPath PathRead ShapeModel RepairText TableProofs TableLook ResolveModel ResolveSpec ResolveProofs MediaModel MediaSpec.
Import ListNotations.
Open Scope nat_scope.
Open Scope string_scope.

(** ** Words *)
Lemma lower_letter a b : letter_eq a b -> lower a = lower b.
Proof.
  intros [->|(n & H & [[-> ->]|[-> ->]])]; [reflexivity|..];
  (assert (C : In n (map N.of_nat (seq 0 26))) by (apply in_map_iff; exists (N.to_nat n); split; [apply N2Nat.id|apply in_seq; lia]);
   cbn in C; repeat (destruct C as [<-|C]; [reflexivity|]); destruct C).
Qed.
Lemma lowercase_cons c s : lowercase (String c s) = String (lower c) (lowercase s).
Proof. reflexivity. Qed.
Lemma same_lowercase s : forall t, same_word s t -> lowercase s = lowercase t.
Proof.
  induction s as [|a s IH]; intros [|b t] H; try destruct H; [reflexivity|]. rewrite !lowercase_cons. f_equal; [now apply lower_letter|now apply IH].
Qed.
Lemma lower_same c : letter_eq c (lower c).
Proof.
  unfold lower. destruct ((65 <=? N_of_ascii c) && (N_of_ascii c <=? 90))%N eqn:E; [|now left]. apply andb_true_iff in E. destruct E as [A B]. apply N.leb_le in A, B.
  right. exists (N_of_ascii c - 65)%N. split; [lia|]. left. split.
  - replace (65 + (N_of_ascii c - 65))%N with (N_of_ascii c) by lia. now rewrite ascii_N_embedding.
  - f_equal. lia.
Qed.
Lemma lowercase_same s : same_word s (lowercase s).
Proof. induction s as [|c s IH]; [exact I|]. rewrite lowercase_cons. split; [apply lower_same|exact IH]. Qed.
Lemma last_app {A} (l m : list A) d : m <> [] -> last (l ++ m) d = last m d.
Proof. intros H. induction l as [|x l IH]; [reflexivity|]. cbn [app]. rewrite <- IH. destruct (l ++ m)%list eqn:E; [|reflexivity]. apply app_eq_nil in E. tauto. Qed.
Lemma after_dot_ends path w : ends_in path w -> after_dot path = w.
Proof.
  intros [N [->|[s ->]]]; unfold after_dot; [now rewrite split_char_none|].
  change ("." ++ w) with (String "." w). rewrite split_char_app, (split_char_none "." w N). now rewrite last_app.
Qed.
Lemma ends_in_some path : exists w, ends_in path w.
Proof.
  induction path as [|c p (w & N & H)]; [exists ""; repeat split; now left|]. destruct H as [->|[s ->]].
  - destruct (Ascii.eqb_spec c ".") as [->|E].
    + exists w. split; [exact N|]. right. now exists "".
    + exists (String c w). split; [|now left]. unfold no_dot in *. cbn [sforall]. apply Ascii.eqb_neq in E. now rewrite E, N.
  - exists w. split; [exact N|]. right. now exists (String c s).
Qed.
(** ** Kinds *)
Ltac kinds H := cbn in H; repeat (destruct H as [H|H]; [injection H as <- <- <-|]); [..|destruct H].
Lemma vfrom_kind f k m e : In (f, (k, m)) video_kinds -> same_word e k -> vfrom e = Some f.
Proof. intros H S. apply same_lowercase in S. unfold vfrom. rewrite S. kinds H; reflexivity. Qed.
Lemma afrom_kind f k m e : In (f, (k, m)) audio_kinds -> same_word e k -> afrom e = Some f.
Proof. intros H S. apply same_lowercase in S. unfold afrom. rewrite S. kinds H; reflexivity. Qed.
Lemma mfrom_kind f k m e : In (f, (k, m)) part_kinds -> same_word e k -> mfrom e = Some f.
Proof. intros H S. apply same_lowercase in S. unfold mfrom. rewrite S. kinds H; reflexivity. Qed.
Lemma arm_in {A} s (l : list (string * A)) v : arm s l = Some v -> In (s, v) l.
Proof. induction l as [|[k a] l IH]; [discriminate|]. cbn [arm]. destruct (String.eqb_spec s k) as [->|]; [intros [= <-]; now left|]. intros H. right. now apply IH. Qed.
Lemma vfrom_only e f : vfrom e = Some f -> exists k m, In (f, (k, m)) video_kinds /\ same_word e k.
Proof.
  intros H. apply arm_in in H. exists (lowercase e), (vmime f). split; [|apply lowercase_same]. cbn in H.
  repeat (destruct H as [H|H]; [injection H as <- <-; cbn; tauto|]). destruct H.
Qed.
Lemma afrom_only e f : afrom e = Some f -> exists k m, In (f, (k, m)) audio_kinds /\ same_word e k.
Proof.
  intros H. apply arm_in in H. exists (lowercase e), (amime f). split; [|apply lowercase_same]. cbn in H.
  repeat (destruct H as [H|H]; [injection H as <- <-; cbn; tauto|]). destruct H.
Qed.
Lemma mfrom_only e f : mfrom e = Some f -> exists k m, In (f, (k, m)) part_kinds /\ same_word e k.
Proof.
  intros H. apply arm_in in H. exists (lowercase e), (mmime f). split; [|apply lowercase_same]. cbn in H.
  repeat (destruct H as [H|H]; [injection H as <- <-; cbn; tauto|]). destruct H.
Qed.
Theorem video_kind f k m path e x y w h : In (f, (k, m)) video_kinds -> ends_in path e -> same_word e k ->
  video_from_file path x y w h = Some (Video path f x y w h vdefault None None).
Proof. intros K E S. unfold video_from_file. now rewrite (after_dot_ends _ _ E), (vfrom_kind _ _ _ _ K S). Qed.
Theorem audio_kind f k m path e x y w h : In (f, (k, m)) audio_kinds -> ends_in path e -> same_word e k ->
  audio_from_file path x y w h = Some (Audio path f x y w h adefault None).
Proof. intros K E S. unfold audio_from_file. now rewrite (after_dot_ends _ _ E), (afrom_kind _ _ _ _ K S). Qed.
Theorem video_only path x y w h v : video_from_file path x y w h = Some v -> exists f k m e, In (f, (k, m)) video_kinds /\ ends_in path e /\ same_word e k.
Proof.
  unfold video_from_file. destruct (ends_in_some path) as (e & E). rewrite (after_dot_ends _ _ E). destruct (vfrom e) as [f|] eqn:V; [|discriminate].
  intros _. destruct (vfrom_only e f V) as (k & m & K & S). now exists f, k, m, e.
Qed.
Theorem audio_only path x y w h v : audio_from_file path x y w h = Some v -> exists f k m e, In (f, (k, m)) audio_kinds /\ ends_in path e /\ same_word e k.
Proof.
  unfold audio_from_file. destruct (ends_in_some path) as (e & E). rewrite (after_dot_ends _ _ E). destruct (afrom e) as [f|] eqn:V; [|discriminate].
  intros _. destruct (afrom_only e f V) as (k & m & K & S). now exists f, k, m, e.
Qed.
(** ** What is written *)
Lemma typesV f k m : In (f, (k, m)) video_kinds -> vmime f = m /\ vext f = k /\ xml_read (video_type f) = Some (Elem "Default" [("Extension", k); ("ContentType", m)] []).
Proof. intros H. kinds H; repeat split; vm_compute; reflexivity. Qed.
Lemma typesA f k m : In (f, (k, m)) audio_kinds -> amime f = m /\ aext f = k /\ xml_read (audio_type f) = Some (Elem "Default" [("Extension", k); ("ContentType", m)] []).
Proof. intros H. kinds H; repeat split; vm_compute; reflexivity. Qed.
Local Notation nlP := (TT [Lit nl]).
Definition mediaT (kind : string) (head : string) (sid : string) (alt : string) (id : string) (x y w h : string) : tpl :=
  TE "p:pic" [] [nlP; TE "p:nvPicPr" [] [nlP;
    TE "p:cNvPr" [("id", [Lit sid]); ("name", [Lit head; Lit sid]); ("descr", [Esc alt])] [nlP; TS "a:hlinkClick" [("r:id", [Lit ""]); ("action", [Lit "ppaction://media"])]; nlP]; nlP;
    TE "p:cNvPicPr" [] [nlP; TS "a:picLocks" [("noChangeAspect", [Lit "1"])]; nlP]; nlP;
    TE "p:nvPr" [] [nlP; TS kind [("r:link", [Lit id])]; nlP; TE "p:extLst" [] [nlP; TE "p:ext" [("uri", [Lit "{DAA4B4D4-6D71-4841-9C94-3DE7FCFB9230}"])] [nlP;
      TS "p14:media" [("xmlns:p14", [Lit "http://schemas.microsoft.com/office/powerpoint/2010/main"]); ("r:embed", [Lit id])]; nlP]; nlP]; nlP]; nlP]; nlP;
    TE "p:blipFill" [] [nlP; TS "a:blip" [("r:embed", [Lit id])]; nlP; TE "a:stretch" [] [nlP; TS "a:fillRect" []; nlP]; nlP]; nlP;
    TE "p:spPr" [] [nlP; TE "a:xfrm" [] [nlP; TS "a:off" [("x", [Lit x]); ("y", [Lit y])]; nlP; TS "a:ext" [("cx", [Lit w]); ("cy", [Lit h])]; nlP]; nlP;
      TE "a:prstGeom" [("prst", [Lit "rect"])] [nlP; TS "a:avLst" []; nlP]; nlP]; nlP].
Lemma video_str v n id im : video_xml v n id im = tstr (mediaT "a:videoFile" "Video " (dec n) (or_else "Video" (v_alt v)) id (dec (v_x v)) (dec (v_y v)) (dec (v_w v)) (dec (v_h v))).
Proof. unfold video_xml, mediaT. generalize (dec n) (or_else "Video" (v_alt v)) (dec (v_x v)) (dec (v_y v)) (dec (v_w v)) (dec (v_h v)). intros a b c d e f. tstr_eq. Qed.
Lemma audio_str v n id : audio_xml v n id = tstr (mediaT "a:audioFile" "Audio " (dec n) (or_else "Audio" (u_alt v)) id (dec (u_x v)) (dec (u_y v)) (dec (u_w v)) (dec (u_h v))).
Proof. unfold audio_xml, mediaT. generalize (dec n) (or_else "Audio" (u_alt v)) (dec (u_x v)) (dec (u_y v)) (dec (u_w v)) (dec (u_h v)). intros a b c d e f. tstr_eq. Qed.
Lemma id_plain s : id_ok s = true -> sforall plain_val s = true.
Proof. apply sforall_weaken. intros c. destruct c as [[] [] [] [] [] [] [] []]; vm_compute; congruence. Qed.
Lemma mediaT_shown kind head n alt id x y w h : In kind ["a:videoFile"; "a:audioFile"] -> sforall plain_val head = true -> attr_ok alt = true -> id_ok id = true ->
  exists t, xml_read (tstr (mediaT kind head (dec n) alt id (dec x) (dec y) (dec w) (dec h))) = Some t
  /\ media_head t = [(dec n, head ++ dec n, alt)] /\ media_files kind t = [id] /\ media_embeds t = [id] /\ media_picture t = [id]
  /\ media_place t = [(dec x, dec y); (dec w, dec h)].
Proof.
  intros K P A I. apply id_plain in I. eexists. split.
  { apply tpl_read_node. assert (N : is_name kind = true) by (destruct K as [<-|[<-|[]]]; reflexivity).
    fold (mediaT kind head (dec n) alt id (dec x) (dec y) (dec w) (dec h)). unfold mediaT.
    repeat lazymatch goal with
    | |- tok (TS kind _) => split; [exact N|aok]
    | _ => tstep
    end. }
  assert (V : forall a b, vals [Lit a; Lit b] = a ++ b) by (intros a b; unfold vals; cbn [map pval sconcat fold_right]; now rewrite sapp_nil_r).
  repeat split.
  - unfold media_head. pread. unfold attr, attr_opt, tnode, attrs_val. cbn [map fst snd find String.eqb Ascii.eqb Bool.eqb option_map]. now rewrite V, vals_lit, vals_esc.
  - unfold media_files. destruct K as [<-|[<-|[]]]; pread; unfold attr, attr_opt, tnode, attrs_val; cbn [map fst snd find String.eqb Ascii.eqb Bool.eqb option_map]; now rewrite vals_lit.
  - unfold media_embeds. destruct K as [<-|[<-|[]]]; pread; unfold attr, attr_opt, tnode, attrs_val; cbn [map fst snd find String.eqb Ascii.eqb Bool.eqb option_map]; now rewrite vals_lit.
  - unfold media_picture. pread. unfold attr, attr_opt, tnode, attrs_val. cbn [map fst snd find String.eqb Ascii.eqb Bool.eqb option_map]. now rewrite vals_lit.
  - unfold media_place. pread. unfold attr, attr_opt, tnode, attrs_val. cbn [map fst snd find String.eqb Ascii.eqb Bool.eqb option_map]. now rewrite !vals_lit.
Qed.
(** ** Parts *)
Lemma srev_no c s : sforall (fun x => negb (Ascii.eqb x c)) s = true -> sforall (fun x => negb (Ascii.eqb x c)) (srev s) = true.
Proof.
  induction s as [|d s IH]; [reflexivity|]. cbn [sforall]. rewrite andb_true_iff. intros [A B]. rewrite srev_cons, sforall_app. cbn [s1 sforall]. now rewrite IH, A.
Qed.
Lemma split_once_char c s t : sforall (fun x => negb (Ascii.eqb x c)) s = true -> split_once (s1 c) (s ++ s1 c ++ t) = Some (s, t).
Proof.
  induction s as [|d s IH]; intros H.
  - change (split_once (String c "") (String c t) = Some ("", t)). unfold split_once. cbn [strip_prefix]. now rewrite Ascii.eqb_refl.
  - cbn [sforall] in H. apply andb_true_iff in H. destruct H as [A B]. apply negb_true_iff in A. specialize (IH B).
    change (split_once (s1 c) (String d (s ++ s1 c ++ t)) = Some (String d s, t)).
    assert (E : forall p d r, split_once p (String d r) = match strip_prefix p (String d r) with Some rest => Some ("", rest) | None => match split_once p r with Some (a, b) => Some (String d a, b) | None => None end end) by reflexivity.
    rewrite E, IH. unfold s1. cbn [strip_prefix]. now rewrite Ascii.eqb_sym, A.
Qed.
Lemma file_of d f : no_slash f -> f <> "" -> f <> "." -> f <> ".." -> file_name f = Some f /\ file_name (d ++ "/" ++ f) = Some f.
Proof.
  intros N A B C. apply String.eqb_neq in A, B, C. unfold file_name. change ("/" ++ f) with (String "/" f). rewrite split_char_app, (split_char_none _ _ N).
  rewrite filter_app, rev_app_distr. cbn [filter]. rewrite A, B. cbn [orb negb rev app]. now rewrite C.
Qed.
Lemma extension_of_file path stem e : file_called path stem e -> e <> "" -> path_extension path = Some e.
Proof.
  intros (NS & S & E & D & H) NE. set (f := stem ++ "." ++ e) in *.
  assert (SL : no_slash f) by (unfold no_slash, f in *; rewrite !sforall_app, S, E; reflexivity).
  assert (L : 3 <= String.length f).
  { unfold f. rewrite !slength_app. destruct stem; [congruence|]. destruct e; [congruence|]. cbn. lia. }
  assert (X : f <> "" /\ f <> "." /\ f <> "..") by (repeat split; intros ->; cbn in L; lia). destruct X as (X1 & X2 & X3).
  assert (F : file_name path = Some f). { destruct H as [->|[d ->]]; [exact (proj1 (file_of "" f SL X1 X2 X3))|exact (proj2 (file_of d f SL X1 X2 X3))]. }
  unfold path_extension. rewrite F. assert (R : srev f = srev e ++ s1 "." ++ srev stem) by (unfold f; rewrite !srev_sapp; apply sapp_assoc).
  rewrite R. pose proof (split_once_char "." (srev e) (srev stem) (srev_no _ _ D)) as Q. change (split_once "." (srev e ++ s1 "." ++ srev stem) = Some (srev e, srev stem)) in Q. rewrite Q.
  destruct (String.eqb_spec (srev stem) "") as [Z|Z]; [|now rewrite srev_involutive].
  exfalso. apply NS. rewrite <- (srev_involutive stem), Z. reflexivity.
Qed.
Lemma word_nonempty e k : same_word e k -> k <> "" -> e <> "".
Proof. intros H K ->. destruct k; [congruence|destruct H]. Qed.
Theorem media_part n path stem e f k m data : In (f, (k, m)) part_kinds -> file_called path stem e -> same_word e k ->
  exists p, mpart_from_file n path (Some data) = Some p /\ mp_format p = f /\ mp_data p = data /\ mp_path p = "ppt/media/media" ++ dec n ++ "." ++ k
  /\ mmime f = m /\ resolve_rel_target "ppt/slides" (mpart_target p) = mp_path p.
Proof.
  intros K F S. assert (NE : k <> "") by (kinds K; discriminate). exists (mpart_new n f data). unfold mpart_from_file.
  rewrite (extension_of_file _ _ _ F (word_nonempty _ _ S NE)), (mfrom_kind _ _ _ _ K S). split; [reflexivity|]. split; [reflexivity|]. split; [reflexivity|].
  assert (X : mext f = k /\ mmime f = m /\ no_slash k) by (kinds K; repeat split; reflexivity). destruct X as (X & M & NS). unfold mpart_new. cbn [mp_path mp_number mp_format]. rewrite X.
  split; [reflexivity|]. split; [exact M|]. unfold mpart_target. cbn [mp_number mp_format]. rewrite X. clear X M S F.
  set (g := "media" ++ dec n ++ "." ++ k).
  assert (G : name g).
  { unfold g, name. repeat split; try discriminate. rewrite !sforall_app. unfold no_slash in NS. rewrite NS.
    assert (D : sforall (fun c => negb (Ascii.eqb c "/")) (dec n) = true).
    { eapply sforall_weaken; [|apply dec_digits]. intros c. destruct c as [[] [] [] [] [] [] [] []]; vm_compute; congruence. }
    now rewrite D. }
  pose proof (sibling ["ppt"] ["slides"] ["media"; g]) as R. apply R.
  - repeat constructor; discriminate.
  - repeat constructor; discriminate.
  - repeat (apply Forall_cons; [first [exact G|repeat split; discriminate]|]). apply Forall_nil.
  - discriminate.
Qed.
Theorem media_part_only n path data p : mpart_from_file n path (Some data) = Some p -> exists e k m, path_extension path = Some e /\ In (mp_format p, (k, m)) part_kinds /\ same_word e k.
Proof.
  unfold mpart_from_file. destruct (path_extension path) as [e|] eqn:P; [|discriminate]. destruct (mfrom e) as [f|] eqn:M; [|discriminate]. intros [= <-].
  destruct (mfrom_only e f M) as (k & m & K & S). now exists e, k, m.
Qed.
Lemma digits_dot a b s t : sforall is_digit a = true -> sforall is_digit b = true -> a ++ "." ++ s = b ++ "." ++ t -> a = b.
Proof.
  revert b. induction a as [|c a IH]; intros [|d b] A B E; [reflexivity| | |].
  - change (String "." s = String d (b ++ "." ++ t)) in E. injection E as <- E. discriminate.
  - change (String c (a ++ "." ++ s) = String "." t) in E. injection E as -> E. discriminate.
  - change (String c (a ++ "." ++ s) = String d (b ++ "." ++ t)) in E. injection E as <- E. cbn [sforall] in A, B. apply andb_true_iff in A, B. f_equal. now apply IH.
Qed.
Lemma prefix_cut p a b : p ++ a = p ++ b -> a = b.
Proof. induction p as [|c p IH]; [trivial|]. intros H. change (String c (p ++ a) = String c (p ++ b)) in H. injection H as H. now apply IH. Qed.
Theorem media_distinct n m f g a b : mp_path (mpart_new n f a) = mp_path (mpart_new m g b) -> n = m.
Proof.
  unfold mpart_new. cbn [mp_path]. intros H. assert (K : dec n ++ "." ++ mext f = dec m ++ "." ++ mext g) by exact (prefix_cut "ppt/media/media" _ _ H). apply digits_dot in K; [now apply dec_inj|apply dec_digits..].
Qed.
Theorem image_distinct n m f g a b : ip_path (ipart_new n f a) = ip_path (ipart_new m g b) -> n = m.
Proof.
  unfold ipart_new. cbv zeta. cbn [ip_path]. intros H. assert (K : dec n ++ "." ++ jpg (lowercase f) = dec m ++ "." ++ jpg (lowercase g)) by exact (prefix_cut "ppt/media/image" _ _ H). apply digits_dot in K; [now apply dec_inj|apply dec_digits..].
Qed.
Lemma lowercase_slash s : no_slash s -> no_slash (lowercase s).
Proof.
  unfold no_slash. induction s as [|c s IH]; [trivial|]. rewrite lowercase_cons. cbn [sforall]. rewrite !andb_true_iff. intros [A B]. split; [|now apply IH].
  revert A. clear. destruct c as [[] [] [] [] [] [] [] []]; vm_compute; congruence.
Qed.
Theorem image_part n format data : no_slash format ->
  let p := ipart_new n format data in ip_data p = data /\ ip_number p = n
  /\ resolve_rel_target "ppt/slides" (ipart_target p) = ip_path p.
Proof.
  intros H. cbv zeta. split; [reflexivity|]. split; [reflexivity|]. unfold ipart_target, ipart_new. cbv zeta. cbn [ip_path ip_number ip_format].
  assert (NS : no_slash (jpg (lowercase format))) by (unfold jpg; destruct (String.eqb _ _); [reflexivity|now apply lowercase_slash]).
  set (g := "image" ++ dec n ++ "." ++ jpg (lowercase format)).
  assert (G : name g).
  { unfold g, name. repeat split; try discriminate. rewrite !sforall_app. unfold no_slash in NS. rewrite NS.
    assert (D : sforall (fun c => negb (Ascii.eqb c "/")) (dec n) = true).
    { eapply sforall_weaken; [|apply dec_digits]. intros c. destruct c as [[] [] [] [] [] [] [] []]; vm_compute; congruence. }
    now rewrite D. }
  pose proof (sibling ["ppt"] ["slides"] ["media"; g]) as R. apply R.
  - repeat constructor; discriminate.
  - repeat constructor; discriminate.
  - repeat (apply Forall_cons; [first [exact G|repeat split; discriminate]|]). apply Forall_nil.
  - discriminate.
Qed.
Theorem image_type n format k t data : In (k, t) picture_types -> same_word format k ->
  let p := ipart_new n format data in ip_path p = "ppt/media/image" ++ dec n ++ "." ++ (if String.eqb k "jpeg" then "jpg" else k) /\ ipart_mime p = t /\ ipart_content p = t.
Proof.
  intros K S. apply same_lowercase in S. cbv zeta. unfold ipart_new, ipart_mime, ipart_content. cbv zeta. cbn [ip_path ip_format]. rewrite S.
  cbn in K. repeat (destruct K as [K|K]; [injection K as <- <-; repeat split; reflexivity|]). destruct K.
Qed.
Theorem video_shown v n id im : attr_ok (match v_alt v with Some a => a | None => "Video" end) = true -> id_ok id = true ->
  exists t, xml_read (video_xml v n id im) = Some t
  /\ media_head t = [(dec n, "Video " ++ dec n, match v_alt v with Some a => a | None => "Video" end)]
  /\ media_files "a:videoFile" t = [id] /\ media_embeds t = [id] /\ media_picture t = [id]
  /\ media_place t = [(dec (v_x v), dec (v_y v)); (dec (v_w v), dec (v_h v))].
Proof. intros A I. rewrite video_str. apply mediaT_shown; [cbn; tauto|reflexivity|exact A|exact I]. Qed.
Theorem audio_shown v n id : attr_ok (match u_alt v with Some a => a | None => "Audio" end) = true -> id_ok id = true ->
  exists t, xml_read (audio_xml v n id) = Some t
  /\ media_head t = [(dec n, "Audio " ++ dec n, match u_alt v with Some a => a | None => "Audio" end)]
  /\ media_files "a:audioFile" t = [id] /\ media_embeds t = [id] /\ media_picture t = [id]
  /\ media_place t = [(dec (u_x v), dec (u_y v)); (dec (u_w v), dec (u_h v))].
Proof. intros A I. rewrite audio_str. apply mediaT_shown; [cbn; tauto|reflexivity|exact A|exact I]. Qed.
