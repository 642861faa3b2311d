(** What is expected of videos, sounds and the parts that hold them. *)
From Coq Require Import String Ascii List Bool NArith.
From Verif Require Import Str Num XmlSpec OpcSpec XmlPath MediaModel.
Import ListNotations.
Open Scope string_scope.

(** The kinds of videos and sounds: ending of the file name and media type. *)
Definition video_kinds : list (vformat * (string * string)) :=
  [(Mp4, ("mp4", "video/mp4")); (Wmv, ("wmv", "video/x-ms-wmv")); (Avi, ("avi", "video/x-msvideo")); (Mov, ("mov", "video/quicktime"));
   (Mkv, ("mkv", "video/x-matroska")); (Webm, ("webm", "video/webm")); (M4v, ("m4v", "video/x-m4v"))].
Definition audio_kinds : list (aformat * (string * string)) :=
  [(Mp3, ("mp3", "audio/mpeg")); (Wav, ("wav", "audio/wav")); (Wma, ("wma", "audio/x-ms-wma")); (M4a, ("m4a", "audio/mp4"));
   (Ogg, ("ogg", "audio/ogg")); (Flac, ("flac", "audio/flac")); (Aac, ("aac", "audio/aac"))].
Definition part_kinds : list (mformat * (string * string)) :=
  [(PMp4, ("mp4", "video/mp4")); (PWebm, ("webm", "video/webm")); (PAvi, ("avi", "video/x-msvideo")); (PWmv, ("wmv", "video/x-ms-wmv")); (PMov, ("mov", "video/quicktime"));
   (PMp3, ("mp3", "audio/mpeg")); (PWav, ("wav", "audio/wav")); (PWma, ("wma", "audio/x-ms-wma")); (PM4a, ("m4a", "audio/mp4")); (POgg, ("ogg", "audio/ogg"))].

(** Two ASCII words are the same but for the case of their letters. *)
Definition letter_eq (a b : ascii) : Prop := a = b \/ exists n, (n < 26)%N /\ ((a = ascii_of_N (65 + n) /\ b = ascii_of_N (97 + n)) \/ (a = ascii_of_N (97 + n) /\ b = ascii_of_N (65 + n))).
Fixpoint same_word (s t : string) : Prop :=
  match s, t with
  | String a s, String b t => letter_eq a b /\ same_word s t
  | EmptyString, EmptyString => True
  | _, _ => False
  end.
Definition no_dot (s : string) : Prop := sforall (fun c => negb (Ascii.eqb c ".")) s = true.
(** A file name ends in a word: the word stands behind its last dot, or it has
    no dot at all. *)
Definition ends_in (path word : string) : Prop := no_dot word /\ (path = word \/ exists stem, path = stem ++ "." ++ word).

(** What a reader sees of a video or sound: number, name and description of the
    object; the relationship of the file, of its second mention, of the picture
    shown; place and size. *)
Definition media_head (x : node) : list (string * string * string) := map (fun c => (attr "id" c, attr "name" c, attr "descr" c)) (at_path ["p:nvPicPr"; "p:cNvPr"] x).
Definition media_files (kind : string) (x : node) : list string := map (attr "r:link") (at_path ["p:nvPicPr"; "p:nvPr"; kind] x).
Definition media_embeds (x : node) : list string := map (attr "r:embed") (at_path ["p:nvPicPr"; "p:nvPr"; "p:extLst"; "p:ext"; "p14:media"] x).
Definition media_picture (x : node) : list string := map (attr "r:embed") (at_path ["p:blipFill"; "a:blip"] x).
Definition media_place (x : node) : list (string * string) :=
  (map (fun o => (attr "x" o, attr "y" o)) (at_path ["p:spPr"; "a:xfrm"; "a:off"] x) ++ map (fun o => (attr "cx" o, attr "cy" o)) (at_path ["p:spPr"; "a:xfrm"; "a:ext"] x))%list.
(** A relationship id: letters and digits and the like, no markup. *)
Definition id_ok (s : string) : bool := sforall (fun c => let n := N_of_ascii c in ((48 <=? n) && (n <=? 57) || (65 <=? n) && (n <=? 90) || (97 <=? n) && (n <=? 122) || (n =? 95))%N) s.
(** A file called [stem.word] in some directory, or none. *)
Definition no_slash (s : string) : Prop := sforall (fun c => negb (Ascii.eqb c "/")) s = true.
Definition file_called (path stem word : string) : Prop :=
  stem <> "" /\ no_slash stem /\ no_slash word /\ no_dot word /\ (path = stem ++ "." ++ word \/ exists d, path = d ++ "/" ++ stem ++ "." ++ word).
(** The types of pictures by the ending of their files. *)
Definition picture_types : list (string * string) :=
  [("png", "image/png"); ("jpg", "image/jpeg"); ("jpeg", "image/jpeg"); ("gif", "image/gif"); ("bmp", "image/bmp"); ("tiff", "image/tiff")].
