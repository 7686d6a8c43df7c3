(** LinkStartSpec.v: the torrent file as it is reached through links. *)
From Verif Require Import Base BencodeModel PathModel PathSpec LayoutModel InfoSpec UtilsModel FsModel LinkModel LinkSpec.

(** The content found by a path, links followed. *)
Definition l_file (L : links) (w : world) (p : bytes) : option bytes :=
  match real L (w_cwd w) p with Some q => file_in w q | None => None end.
(** SafeSpec.benign, links followed: ordinary names; everything else in the torrent is arbitrary. *)
Definition l_benign (L : links) (sp : bytes) (o : Opts) (w : world) : Prop :=
  forall c d info, l_file L w (UtilsModel.o_input o) = Some c -> Decode (mkslice c sp) = Ok (VDict d) -> GetDict d (B "info") = Ok info ->
    plain_paths info /\ forall name, GetString info (B "name") = Ok name -> plain_name name.
