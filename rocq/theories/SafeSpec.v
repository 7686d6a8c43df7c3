(** SafeSpec.v: which files a torrent file names. *)
From Verif Require Import Base BencodeModel PathModel PathSpec LayoutModel InfoSpec UtilsModel FsModel FsSpec StartModel StartSpec.

(** The places of the files of the torrent given on the command line, as seen from this disk; none if it cannot be read. *)
Definition named (sha1 : bytes -> bytes) (sp : bytes) (o : Opts) (w : world) : list (list bytes) :=
  match file_at w (UtilsModel.o_input o) with
  | Some c => match FromTorrentFile sha1 (mkslice c sp) (o_wd o) with Ok tor => places w (map en_base (ti_files (t_info tor))) | _ => [] end
  | None => []
  end.
(** The torrent's name and the components of its paths are ordinary file names. Sizes, piece length, hashes, keys and their
    number are arbitrary. *)
Definition benign (sp : bytes) (o : Opts) (w : world) : Prop :=
  forall c d info, file_at w (UtilsModel.o_input o) = Some c -> Decode (mkslice c sp) = Ok (VDict d) -> GetDict d (B "info") = Ok info ->
    plain_paths info /\ forall name, GetString info (B "name") = Ok name -> plain_name name.
