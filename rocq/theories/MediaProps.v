(** C82: videos, sounds and the parts that hold them and pictures. *)
From Coq Require Import String Ascii List Bool NArith.
From Verif Require Import Str Num EscapeProofs XmlSpec XmlProofs OpcSpec XmlPath ShapeModel ResolveModel MediaModel MediaSpec MediaProofs.
Import ListNotations.
Open Scope string_scope.

(** A file whose name ends in the word of a kind, in capitals or not, becomes a
    video (a sound) of that kind at the place asked for. *)
Theorem C82_video_kind f k m path e x y w h : In (f, (k, m)) video_kinds -> ends_in path e -> same_word e k ->
  video_from_file path x y w h = Some (Video path f x y w h vdefault None None).
Proof. exact (video_kind f k m path e x y w h). Qed.
Print Assumptions C82_video_kind.
Theorem C82_audio_kind f k m path e x y w h : In (f, (k, m)) audio_kinds -> ends_in path e -> same_word e k ->
  audio_from_file path x y w h = Some (Audio path f x y w h adefault None).
Proof. exact (audio_kind f k m path e x y w h). Qed.
Print Assumptions C82_audio_kind.
(** No other file does. *)
Theorem C82_video_only path x y w h v : video_from_file path x y w h = Some v -> exists f k m e, In (f, (k, m)) video_kinds /\ ends_in path e /\ same_word e k.
Proof. exact (video_only path x y w h v). Qed.
Print Assumptions C82_video_only.
Theorem C82_audio_only path x y w h v : audio_from_file path x y w h = Some v -> exists f k m e, In (f, (k, m)) audio_kinds /\ ends_in path e /\ same_word e k.
Proof. exact (audio_only path x y w h v). Qed.
Print Assumptions C82_audio_only.
Example C82_kind_case : ends_in "a.b/c.MoV" "MoV" /\ same_word "MoV" "mov" /\ In (Mov, ("mov", "video/quicktime")) video_kinds
  /\ audio_from_file "a.b/c.MoV" 1 2 3 4 = None.
Proof.
  split; [split; [reflexivity|right; now exists "a.b/c"]|]. split; [|split; [cbn; tauto|reflexivity]].
  split; [|split; [now left|split; [|exact I]]]; right; [exists 12%N|exists 21%N]; (split; [reflexivity|left; split; reflexivity]).
Qed.
(** The content type written for a kind. *)
Theorem C82_video_type f k m : In (f, (k, m)) video_kinds ->
  vmime f = m /\ vext f = k /\ xml_read (video_type f) = Some (Elem "Default" [("Extension", k); ("ContentType", m)] []).
Proof. exact (typesV f k m). Qed.
Print Assumptions C82_video_type.
Theorem C82_audio_type f k m : In (f, (k, m)) audio_kinds ->
  amime f = m /\ aext f = k /\ xml_read (audio_type f) = Some (Elem "Default" [("Extension", k); ("ContentType", m)] []).
Proof. exact (typesA f k m). Qed.
Print Assumptions C82_audio_type.
(** A video (a sound) is written as well-formed XML with its number, its
    description, the relationship of its file, its place and its size. *)
Theorem C82_video_shown v n id im : attr_ok (match v_alt v with Some a => a | None => "Video" end) = true -> id_ok id = true ->
  exists t, xml_read (video_xml v n id im) = Some t
  /\ media_head t = [(dec n, "Video " ++ dec n, match v_alt v with Some a => a | None => "Video" end)]
  /\ media_files "a:videoFile" t = [id] /\ media_embeds t = [id] /\ media_picture t = [id]
  /\ media_place t = [(dec (v_x v), dec (v_y v)); (dec (v_w v), dec (v_h v))].
Proof. exact (video_shown v n id im). Qed.
Print Assumptions C82_video_shown.
Theorem C82_audio_shown v n id : attr_ok (match u_alt v with Some a => a | None => "Audio" end) = true -> id_ok id = true ->
  exists t, xml_read (audio_xml v n id) = Some t
  /\ media_head t = [(dec n, "Audio " ++ dec n, match u_alt v with Some a => a | None => "Audio" end)]
  /\ media_files "a:audioFile" t = [id] /\ media_embeds t = [id] /\ media_picture t = [id]
  /\ media_place t = [(dec (u_x v), dec (u_y v)); (dec (u_w v), dec (u_h v))].
Proof. exact (audio_shown v n id). Qed.
Print Assumptions C82_audio_shown.
Example C82_shown_case : attr_ok "R&D <live>" = true /\ id_ok "rId12" = true /\ v_alt (v_with_alt "R&D <live>" (video_new "a.mp4" Mp4 1 2 3 4)) = Some "R&D <live>".
Proof. repeat split. Qed.
(** How it is to be played is never written, and the picture to show before it
    plays is never used. *)
Theorem C82_options_refuted : forall v n id im, (forall o, video_xml (v_with_options o v) n id im = video_xml v n id im)
  /\ (forall p, video_xml (v_with_poster p v) n id im = video_xml v n id im) /\ (forall other, video_xml v n id other = video_xml v n id im).
Proof. intros. repeat split. Qed.
Print Assumptions C82_options_refuted.
Theorem C82_sound_options_refuted : forall u n id o, audio_xml (a_with_options o u) n id = audio_xml u n id.
Proof. reflexivity. Qed.
Print Assumptions C82_sound_options_refuted.
(** The part of a video or sound made from a file has the kind of the file, its
    bytes and a name of its own, and the target it gives leads to it from a slide. *)
Theorem C82_part n path stem e f k m data : In (f, (k, m)) part_kinds -> file_called path stem e -> same_word e k ->
  exists p, mpart_from_file n path (Some data) = Some p /\ mp_format p = f /\ mp_data p = data /\ mp_path p = "ppt/media/media" ++ dec n ++ "." ++ k
  /\ mmime f = m /\ resolve_rel_target "ppt/slides" (mpart_target p) = mp_path p.
Proof. exact (media_part n path stem e f k m data). Qed.
Print Assumptions C82_part.
Theorem C82_part_only n path data p : mpart_from_file n path (Some data) = Some p ->
  exists e k m, path_extension path = Some e /\ In (mp_format p, (k, m)) part_kinds /\ same_word e k.
Proof. exact (media_part_only n path data p). Qed.
Print Assumptions C82_part_only.
Example C82_part_case : file_called "x/y.z/a.b.mp3" "a.b" "mp3" /\ same_word "mp3" "mp3" /\ In (PMp3, ("mp3", "audio/mpeg")) part_kinds.
Proof.
  split; [|split; [repeat split; now left|cbn; tauto]]. split; [discriminate|]. split; [reflexivity|]. split; [reflexivity|]. split; [reflexivity|]. right. now exists "x/y.z".
Qed.
(** Parts with different numbers have different names. *)
Theorem C82_part_distinct n m f g a b : mp_path (mpart_new n f a) = mp_path (mpart_new m g b) -> n = m.
Proof. exact (media_distinct n m f g a b). Qed.
Print Assumptions C82_part_distinct.
Theorem C82_image_distinct n m f g a b : ip_path (ipart_new n f a) = ip_path (ipart_new m g b) -> n = m.
Proof. exact (image_distinct n m f g a b). Qed.
Print Assumptions C82_image_distinct.
(** The part of a picture: its bytes, its number, a target that leads to it. *)
Theorem C82_image n format data : no_slash format ->
  let p := ipart_new n format data in ip_data p = data /\ ip_number p = n /\ resolve_rel_target "ppt/slides" (ipart_target p) = ip_path p.
Proof. exact (image_part n format data). Qed.
Print Assumptions C82_image.
(** For the usual kinds the name ends in the kind, and the type is that of it. *)
Theorem C82_image_type n format k t data : In (k, t) picture_types -> same_word format k ->
  let p := ipart_new n format data in ip_path p = "ppt/media/image" ++ dec n ++ "." ++ (if String.eqb k "jpeg" then "jpg" else k) /\ ipart_mime p = t /\ ipart_content p = t.
Proof. exact (image_type n format k t data). Qed.
Print Assumptions C82_image_type.
(** A picture ending in "tif" has two types at once; videos and sounds all have
    the type of unknown files. *)
Theorem C82_tif_refuted : let p := ipart_new 1 "tif" "" in ipart_mime p = "image/tiff" /\ ipart_content p = "application/octet-stream".
Proof. split; reflexivity. Qed.
Print Assumptions C82_tif_refuted.
Theorem C82_part_type_refuted : forall n f data, mpart_content (mpart_new n f data) = "application/octet-stream".
Proof. intros n f data. destruct f; reflexivity. Qed.
Print Assumptions C82_part_type_refuted.
