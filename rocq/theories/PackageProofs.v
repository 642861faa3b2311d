From Coq Require Import String Ascii List.
From stdpp Require Import base gmap strings.
From Verif Require Import PackageModel PackageSpec.
Import ListNotations.

Lemma run_newest h : forall name, get_part (run (rev h) new) name = newest name h.
Proof.
  induction h as [|o h IH]; intros name; [apply lookup_empty|].
  cbn [rev]. unfold run in *. rewrite fold_left_app. cbn [fold_left]. unfold get_part in *.
  destruct o as [path content|path]; cbn [newest step remove_part snd]; unfold add_part.
  - destruct (String.eqb_spec path name) as [->|E]; [apply lookup_insert|now rewrite lookup_insert_ne].
  - destruct (String.eqb_spec path name) as [->|E]; [apply lookup_delete|now rewrite lookup_delete_ne].
Qed.

Lemma run_get h name : get_part (run h new) name = newest name (rev h).
Proof. rewrite <- run_newest. now rewrite rev_involutive. Qed.

Lemma keys_spec p l : keys_order p l -> List.NoDup l /\ (forall x, In x l <-> get_part p x <> None) /\ length l = part_count p.
Proof.
  unfold keys_order, get_part, part_count. intros H. split; [|split].
  - apply (Permutation_NoDup (Permutation_sym H)). apply NoDup_ListNoDup. exact (NoDup_fst_map_to_list p).
  - intros x. rewrite H. rewrite in_map_iff. split.
    + intros ([k v] & <- & Hi). apply elem_of_list_In, elem_of_map_to_list in Hi. cbn. now rewrite Hi.
    + destruct (p !! x) as [v|] eqn:E; [|congruence]. intros _. exists (x, v). split; [reflexivity|].
      apply elem_of_list_In, elem_of_map_to_list, E.
  - rewrite H, map_length. unfold size, map_size. reflexivity.
Qed.

Section Archive.
Variable is_dir : string -> bool.

Lemma open_newest h : forall name,
  get_part (open_entries is_dir (rev h)) name = if is_dir name then None else newest_entry name h.
Proof.
  induction h as [|[n c] h IH]; intros name.
  - cbn. unfold get_part. rewrite lookup_empty. now destruct (is_dir name).
  - cbn [rev]. unfold open_entries in *. rewrite fold_left_app. cbn [fold_left fst snd]. unfold get_part in *.
    cbn [newest_entry]. destruct (String.eqb_spec n name) as [->|E].
    + destruct (is_dir name) eqn:D; [rewrite IH, D; reflexivity|apply lookup_insert].
    + destruct (is_dir n); [apply IH|]. rewrite lookup_insert_ne by assumption. apply IH.
Qed.

Lemma newest_entry_In h : List.NoDup (map fst h) -> forall n c, In (n, c) h -> newest_entry n h = Some c.
Proof.
  induction h as [|[m d] h IH]; intros N n c; [intros []|]. cbn [map fst newest_entry] in *. inversion N as [|? ? N1 N2]; subst.
  intros [E|I].
  - injection E as -> ->. now rewrite String.eqb_refl.
  - destruct (String.eqb_spec m n) as [->|_]; [|now apply IH]. exfalso. apply N1. apply in_map_iff. now exists (n, c).
Qed.
Lemma newest_entry_None h n : ~ In n (map fst h) -> newest_entry n h = None.
Proof.
  induction h as [|[m d] h IH]; [reflexivity|]. cbn [map fst newest_entry]. intros H.
  destruct (String.eqb_spec m n) as [->|_]; [exfalso; apply H; now left|]. apply IH. intros K. apply H. now right.
Qed.

Lemma open_save p l : save_order p l -> forall name,
  get_part (open_entries is_dir l) name = if is_dir name then None else get_part p name.
Proof.
  intros H name. rewrite <- (rev_involutive l), open_newest. destruct (is_dir name); [reflexivity|].
  unfold save_order in H.
  assert (P : Permutation (rev l) (map_to_list p)) by (rewrite <- Permutation_rev; exact H).
  assert (N : List.NoDup (map fst (rev l))).
  { apply (Permutation_NoDup (Permutation_map fst (Permutation_sym P))). apply NoDup_ListNoDup. exact (NoDup_fst_map_to_list p). }
  unfold get_part. destruct (p !! name) as [c|] eqn:E.
  - apply newest_entry_In; [exact N|]. rewrite P. apply elem_of_list_In, elem_of_map_to_list, E.
  - apply newest_entry_None. rewrite P. intros K. apply in_map_iff in K. destruct K as ([k v] & <- & Hi).
    apply elem_of_list_In, elem_of_map_to_list in Hi. cbn in E. congruence.
Qed.

Lemma open_save_eq p l : save_order p l -> (forall name, get_part p name <> None -> is_dir name = false) ->
  open_entries is_dir l = p.
Proof.
  intros H D. apply map_eq. intros name. pose proof (open_save p l H name) as E. unfold get_part in *. rewrite E.
  destruct (is_dir name) eqn:I; [|reflexivity]. destruct (p !! name) eqn:K; [|reflexivity].
  rewrite (D name) in I by congruence. discriminate.
Qed.
End Archive.

Lemma observers (p : package) (path : string) (keys : list string) :
  keys_order p keys ->
  (has_part p path = true <-> get_part p path <> None) /\
  fst (remove_part path p) = get_part p path /\
  List.NoDup keys /\ (forall x, In x keys <-> get_part p x <> None) /\ length keys = part_count p.
Proof.
  intros H. split; [|split; [reflexivity|now apply keys_spec]].
  unfold has_part, get_part. destruct (p !! path); split; congruence.
Qed.

Lemma open_get (is_dir : string -> bool) (entries : list entry) (name : string) :
  get_part (open_entries is_dir entries) name = if is_dir name then None else newest_entry name (rev entries).
Proof. rewrite <- open_newest. now rewrite rev_involutive. Qed.
