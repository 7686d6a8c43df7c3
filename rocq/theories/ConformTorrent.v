(** ConformTorrent.v: the project's tests on its own torrent files (test/*.torrent), with the real SHA-1 (Sha1.v), run against the model
    by computation; and the model's answers on those files, end to end. These are tests of the model, not properties. *)
From Verif Require Import Base BencodeModel BitfieldModel WireModel PathModel PathSpec LayoutModel FsModel CreateModel SwarmModel Sha1 Conform.

(** test/multifile.torrent, 569 bytes *)
Definition multifile_torrent : bytes := List.concat (map unhex [
  B "64383a616e6e6f756e636534323a687474703a2f2f6f70656e747261636b65722e6932702e726f636b733a363936392f616e6e6f756e6365373a636f6d6d656e7432313a476f746f722074657374696e672066696c6528732931303a6372656174656420627933303a5472616e736d697373696f6e2f322e";
  B "39342028643865363065653434662931333a6372656174696f6e2064617465693136353536393534363565383a656e636f64696e67353a5554462d38343a696e666f64353a66696c65736c64363a6c656e6774686932353665343a706174686c323a6431343a64312e3131303a64312e312e66696c653165";
  B "6564363a6c656e6774686932353665343a706174686c323a6431343a64312e3231303a64312e322e66696c6531656564363a6c656e6774686932353665343a706174686c323a6432383a64322e66696c6531656564363a6c656e6774686932353665343a706174686c323a6432383a64322e66696c653265";
  B "6564363a6c656e6774686932353665343a706174686c353a66696c6531656564363a6c656e6774686935313265343a706174686c353a66696c6532656564363a6c656e677468693130323465343a706174686c353a66696c6533656564363a6c656e67746869323536303065343a706174686c353a66696c";
  B "6534656565343a6e616d65393a6d756c746966696c6531323a7069656365206c656e67746869333237363865363a70696563657332303ac01da92101ea7d30ce7a63419bde4488a27a8427373a707269766174656930656565"]).
(** test/tinyfile.torrent, 424 bytes *)
Definition tinyfile_torrent : bytes := List.concat (map unhex [
  B "64383a616e6e6f756e636534323a687474703a2f2f6f70656e747261636b65722e6932702e726f636b733a363936392f616e6e6f756e6365373a636f6d6d656e7432313a476f746f722074657374696e672066696c6528732931303a6372656174656420627933303a5472616e736d697373696f6e2f322e";
  B "39342028643865363065653434662931333a6372656174696f6e2064617465693136353730373430383165383a656e636f64696e67353a5554462d38343a696e666f64363a6c656e677468693831393265343a6e616d65383a74696e7966696c6531323a7069656365206c656e677468693130323465363a";
  B "7069656365733136303a5b00669c480d5cffbdfa8bdba99561160f2d1b775b00669c480d5cffbdfa8bdba99561160f2d1b775b00669c480d5cffbdfa8bdba99561160f2d1b775b00669c480d5cffbdfa8bdba99561160f2d1b775b00669c480d5cffbdfa8bdba99561160f2d1b775b00669c480d5cffbdfa";
  B "8bdba99561160f2d1b775b00669c480d5cffbdfa8bdba99561160f2d1b775b00669c480d5cffbdfa8bdba99561160f2d1b77373a707269766174656930656565"]).
(** test/medfile.torrent, 16270 bytes *)
Definition medfile_torrent : bytes := List.concat (map unhex [
  B "64383a616e6e6f756e636534323a687474703a2f2f6f70656e747261636b65722e6932702e726f636b733a363936392f616e6e6f756e6365373a636f6d6d656e7432313a476f746f722074657374696e672066696c6528732931303a6372656174656420627933303a5472616e736d697373696f6e2f322e";
  B "39342028643865363065653434662931333a6372656174696f6e2064617465693136353430343838393865383a656e636f64696e67353a5554462d38343a696e666f64363a6c656e67746869353234323838303065343a6e616d65373a6d656466696c6531323a7069656365206c656e6774686936353533";
  B "3665363a70696563657331363030303af04977267a391b2c8f7ad8e070f149bc19b0fc25f04977267a391b2c8f7ad8e070f149bc19b0fc25f04977267a391b2c8f7ad8e070f149bc19b0fc25f04977267a391b2c8f7ad8e070f149bc19b0fc25f04977267a391b2c8f7ad8e070f149bc19b0fc25f0497726";
  B "7a391b2c8f7ad8e070f149bc19b0fc25f04977267a391b2c8f7ad8e070f149bc19b0fc25f04977267a391b2c8f7ad8e070f149bc19b0fc25f04977267a391b2c8f7ad8e070f149bc19b0fc25f04977267a391b2c8f7ad8e070f149bc19b0fc25f04977267a391b2c8f7ad8e070f149bc19b0fc25f0497726";
  B "7a391b2c8f7ad8e070f149bc19b0fc25f04977267a391b2c8f7ad8e070f149bc19b0fc25f04977267a391b2c8f7ad8e070f149bc19b0fc25f04977267a391b2c8f7ad8e070f149bc19b0fc25f04977267a391b2c8f7ad8e070f149bc19b0fc25f04977267a391b2c8f7ad8e070f149bc19b0fc25f0497726";
  B "7a391b2c8f7ad8e070f149bc19b0fc25f04977267a391b2c8f7ad8e070f149bc19b0fc25f04977267a391b2c8f7ad8e070f149bc19b0fc25f04977267a391b2c8f7ad8e070f149bc19b0fc25f04977267a391b2c8f7ad8e070f149bc19b0fc25f04977267a391b2c8f7ad8e070f149bc19b0fc25f0497726";
  B "7a391b2c8f7ad8e070f149bc19b0fc25f04977267a391b2c8f7ad8e070f149bc19b0fc25f04977267a391b2c8f7ad8e070f149bc19b0fc25f04977267a391b2c8f7ad8e070f149bc19b0fc25f04977267a391b2c8f7ad8e070f149bc19b0fc25f04977267a391b2c8f7ad8e070f149bc19b0fc25f0497726";
  B "7a391b2c8f7ad8e070f149bc19b0fc25f04977267a391b2c8f7ad8e070f149bc19b0fc25f04977267a391b2c8f7ad8e070f149bc19b0fc25f04977267a391b2c8f7ad8e070f149bc19b0fc25f04977267a391b2c8f7ad8e070f149bc19b0fc25f04977267a391b2c8f7ad8e070f149bc19b0fc25f0497726";
  B "7a391b2c8f7ad8e070f149bc19b0fc25f04977267a391b2c8f7ad8e070f149bc19b0fc25f04977267a391b2c8f7ad8e070f149bc19b0fc25f04977267a391b2c8f7ad8e070f149bc19b0fc25f04977267a391b2c8f7ad8e070f149bc19b0fc25f04977267a391b2c8f7ad8e070f149bc19b0fc25f0497726";
  B "7a391b2c8f7ad8e070f149bc19b0fc25f04977267a391b2c8f7ad8e070f149bc19b0fc25f04977267a391b2c8f7ad8e070f149bc19b0fc25f04977267a391b2c8f7ad8e070f149bc19b0fc25f04977267a391b2c8f7ad8e070f149bc19b0fc25f04977267a391b2c8f7ad8e070f149bc19b0fc25f0497726";
  B "7a391b2c8f7ad8e070f149bc19b0fc25f04977267a391b2c8f7ad8e070f149bc19b0fc25f04977267a391b2c8f7ad8e070f149bc19b0fc25f04977267a391b2c8f7ad8e070f149bc19b0fc25f04977267a391b2c8f7ad8e070f149bc19b0fc25f04977267a391b2c8f7ad8e070f149bc19b0fc25f0497726";
  B "7a391b2c8f7ad8e070f149bc19b0fc25f04977267a391b2c8f7ad8e070f149bc19b0fc25f04977267a391b2c8f7ad8e070f149bc19b0fc25f04977267a391b2c8f7ad8e070f149bc19b0fc25f04977267a391b2c8f7ad8e070f149bc19b0fc25f04977267a391b2c8f7ad8e070f149bc19b0fc25f0497726";
  B "7a391b2c8f7ad8e070f149bc19b0fc25f04977267a391b2c8f7ad8e070f149bc19b0fc25f04977267a391b2c8f7ad8e070f149bc19b0fc25f04977267a391b2c8f7ad8e070f149bc19b0fc25f04977267a391b2c8f7ad8e070f149bc19b0fc25f04977267a391b2c8f7ad8e070f149bc19b0fc25f0497726";
  B "7a391b2c8f7ad8e070f149bc19b0fc25f04977267a391b2c8f7ad8e070f149bc19b0fc25f04977267a391b2c8f7ad8e070f149bc19b0fc25f04977267a391b2c8f7ad8e070f149bc19b0fc25f04977267a391b2c8f7ad8e070f149bc19b0fc25f04977267a391b2c8f7ad8e070f149bc19b0fc25f0497726";
  B "7a391b2c8f7ad8e070f149bc19b0fc25f04977267a391b2c8f7ad8e070f149bc19b0fc25f04977267a391b2c8f7ad8e070f149bc19b0fc25f04977267a391b2c8f7ad8e070f149bc19b0fc25f04977267a391b2c8f7ad8e070f149bc19b0fc25f04977267a391b2c8f7ad8e070f149bc19b0fc25f0497726";
  B "7a391b2c8f7ad8e070f149bc19b0fc25f04977267a391b2c8f7ad8e070f149bc19b0fc25f04977267a391b2c8f7ad8e070f149bc19b0fc25f04977267a391b2c8f7ad8e070f149bc19b0fc25f04977267a391b2c8f7ad8e070f149bc19b0fc25f04977267a391b2c8f7ad8e070f149bc19b0fc25f0497726";
  B "7a391b2c8f7ad8e070f149bc19b0fc25f04977267a391b2c8f7ad8e070f149bc19b0fc25f04977267a391b2c8f7ad8e070f149bc19b0fc25f04977267a391b2c8f7ad8e070f149bc19b0fc25f04977267a391b2c8f7ad8e070f149bc19b0fc25f04977267a391b2c8f7ad8e070f149bc19b0fc25f0497726";
  B "7a391b2c8f7ad8e070f149bc19b0fc25f04977267a391b2c8f7ad8e070f149bc19b0fc25f04977267a391b2c8f7ad8e070f149bc19b0fc25f04977267a391b2c8f7ad8e070f149bc19b0fc25f04977267a391b2c8f7ad8e070f149bc19b0fc25f04977267a391b2c8f7ad8e070f149bc19b0fc25f0497726";
  B "7a391b2c8f7ad8e070f149bc19b0fc25f04977267a391b2c8f7ad8e070f149bc19b0fc25f04977267a391b2c8f7ad8e070f149bc19b0fc25f04977267a391b2c8f7ad8e070f149bc19b0fc25f04977267a391b2c8f7ad8e070f149bc19b0fc25f04977267a391b2c8f7ad8e070f149bc19b0fc25f0497726";
  B "7a391b2c8f7ad8e070f149bc19b0fc25f04977267a391b2c8f7ad8e070f149bc19b0fc25f04977267a391b2c8f7ad8e070f149bc19b0fc25f04977267a391b2c8f7ad8e070f149bc19b0fc25f04977267a391b2c8f7ad8e070f149bc19b0fc25f04977267a391b2c8f7ad8e070f149bc19b0fc25f0497726";
  B "7a391b2c8f7ad8e070f149bc19b0fc25f04977267a391b2c8f7ad8e070f149bc19b0fc25f04977267a391b2c8f7ad8e070f149bc19b0fc25f04977267a391b2c8f7ad8e070f149bc19b0fc25f04977267a391b2c8f7ad8e070f149bc19b0fc25f04977267a391b2c8f7ad8e070f149bc19b0fc25f0497726";
  B "7a391b2c8f7ad8e070f149bc19b0fc25f04977267a391b2c8f7ad8e070f149bc19b0fc25f04977267a391b2c8f7ad8e070f149bc19b0fc25f04977267a391b2c8f7ad8e070f149bc19b0fc25f04977267a391b2c8f7ad8e070f149bc19b0fc25f04977267a391b2c8f7ad8e070f149bc19b0fc25f0497726";
  B "7a391b2c8f7ad8e070f149bc19b0fc25f04977267a391b2c8f7ad8e070f149bc19b0fc25f04977267a391b2c8f7ad8e070f149bc19b0fc25f04977267a391b2c8f7ad8e070f149bc19b0fc25f04977267a391b2c8f7ad8e070f149bc19b0fc25f04977267a391b2c8f7ad8e070f149bc19b0fc25f0497726";
  B "7a391b2c8f7ad8e070f149bc19b0fc25f04977267a391b2c8f7ad8e070f149bc19b0fc25f04977267a391b2c8f7ad8e070f149bc19b0fc25f04977267a391b2c8f7ad8e070f149bc19b0fc25f04977267a391b2c8f7ad8e070f149bc19b0fc25f04977267a391b2c8f7ad8e070f149bc19b0fc25f0497726";
  B "7a391b2c8f7ad8e070f149bc19b0fc25f04977267a391b2c8f7ad8e070f149bc19b0fc25f04977267a391b2c8f7ad8e070f149bc19b0fc25f04977267a391b2c8f7ad8e070f149bc19b0fc25f04977267a391b2c8f7ad8e070f149bc19b0fc25f04977267a391b2c8f7ad8e070f149bc19b0fc25f0497726";
  B "7a391b2c8f7ad8e070f149bc19b0fc25f04977267a391b2c8f7ad8e070f149bc19b0fc25f04977267a391b2c8f7ad8e070f149bc19b0fc25f04977267a391b2c8f7ad8e070f149bc19b0fc25f04977267a391b2c8f7ad8e070f149bc19b0fc25f04977267a391b2c8f7ad8e070f149bc19b0fc25f0497726";
  B "7a391b2c8f7ad8e070f149bc19b0fc25f04977267a391b2c8f7ad8e070f149bc19b0fc25f04977267a391b2c8f7ad8e070f149bc19b0fc25f04977267a391b2c8f7ad8e070f149bc19b0fc25f04977267a391b2c8f7ad8e070f149bc19b0fc25f04977267a391b2c8f7ad8e070f149bc19b0fc25f0497726";
  B "7a391b2c8f7ad8e070f149bc19b0fc25f04977267a391b2c8f7ad8e070f149bc19b0fc25f04977267a391b2c8f7ad8e070f149bc19b0fc25f04977267a391b2c8f7ad8e070f149bc19b0fc25f04977267a391b2c8f7ad8e070f149bc19b0fc25f04977267a391b2c8f7ad8e070f149bc19b0fc25f0497726";
  B "7a391b2c8f7ad8e070f149bc19b0fc25f04977267a391b2c8f7ad8e070f149bc19b0fc25f04977267a391b2c8f7ad8e070f149bc19b0fc25f04977267a391b2c8f7ad8e070f149bc19b0fc25f04977267a391b2c8f7ad8e070f149bc19b0fc25f04977267a391b2c8f7ad8e070f149bc19b0fc25f0497726";
  B "7a391b2c8f7ad8e070f149bc19b0fc25f04977267a391b2c8f7ad8e070f149bc19b0fc25f04977267a391b2c8f7ad8e070f149bc19b0fc25f04977267a391b2c8f7ad8e070f149bc19b0fc25f04977267a391b2c8f7ad8e070f149bc19b0fc25f04977267a391b2c8f7ad8e070f149bc19b0fc25f0497726";
  B "7a391b2c8f7ad8e070f149bc19b0fc25f04977267a391b2c8f7ad8e070f149bc19b0fc25f04977267a391b2c8f7ad8e070f149bc19b0fc25f04977267a391b2c8f7ad8e070f149bc19b0fc25f04977267a391b2c8f7ad8e070f149bc19b0fc25f04977267a391b2c8f7ad8e070f149bc19b0fc25f0497726";
  B "7a391b2c8f7ad8e070f149bc19b0fc25f04977267a391b2c8f7ad8e070f149bc19b0fc25f04977267a391b2c8f7ad8e070f149bc19b0fc25f04977267a391b2c8f7ad8e070f149bc19b0fc25f04977267a391b2c8f7ad8e070f149bc19b0fc25f04977267a391b2c8f7ad8e070f149bc19b0fc25f0497726";
  B "7a391b2c8f7ad8e070f149bc19b0fc25f04977267a391b2c8f7ad8e070f149bc19b0fc25f04977267a391b2c8f7ad8e070f149bc19b0fc25f04977267a391b2c8f7ad8e070f149bc19b0fc25f04977267a391b2c8f7ad8e070f149bc19b0fc25f04977267a391b2c8f7ad8e070f149bc19b0fc25f0497726";
  B "7a391b2c8f7ad8e070f149bc19b0fc25f04977267a391b2c8f7ad8e070f149bc19b0fc25f04977267a391b2c8f7ad8e070f149bc19b0fc25f04977267a391b2c8f7ad8e070f149bc19b0fc25f04977267a391b2c8f7ad8e070f149bc19b0fc25f04977267a391b2c8f7ad8e070f149bc19b0fc25f0497726";
  B "7a391b2c8f7ad8e070f149bc19b0fc25f04977267a391b2c8f7ad8e070f149bc19b0fc25f04977267a391b2c8f7ad8e070f149bc19b0fc25f04977267a391b2c8f7ad8e070f149bc19b0fc25f04977267a391b2c8f7ad8e070f149bc19b0fc25f04977267a391b2c8f7ad8e070f149bc19b0fc25f0497726";
  B "7a391b2c8f7ad8e070f149bc19b0fc25f04977267a391b2c8f7ad8e070f149bc19b0fc25f04977267a391b2c8f7ad8e070f149bc19b0fc25f04977267a391b2c8f7ad8e070f149bc19b0fc25f04977267a391b2c8f7ad8e070f149bc19b0fc25f04977267a391b2c8f7ad8e070f149bc19b0fc25f0497726";
  B "7a391b2c8f7ad8e070f149bc19b0fc25f04977267a391b2c8f7ad8e070f149bc19b0fc25f04977267a391b2c8f7ad8e070f149bc19b0fc25f04977267a391b2c8f7ad8e070f149bc19b0fc25f04977267a391b2c8f7ad8e070f149bc19b0fc25f04977267a391b2c8f7ad8e070f149bc19b0fc25f0497726";
  B "7a391b2c8f7ad8e070f149bc19b0fc25f04977267a391b2c8f7ad8e070f149bc19b0fc25f04977267a391b2c8f7ad8e070f149bc19b0fc25f04977267a391b2c8f7ad8e070f149bc19b0fc25f04977267a391b2c8f7ad8e070f149bc19b0fc25f04977267a391b2c8f7ad8e070f149bc19b0fc25f0497726";
  B "7a391b2c8f7ad8e070f149bc19b0fc25f04977267a391b2c8f7ad8e070f149bc19b0fc25f04977267a391b2c8f7ad8e070f149bc19b0fc25f04977267a391b2c8f7ad8e070f149bc19b0fc25f04977267a391b2c8f7ad8e070f149bc19b0fc25f04977267a391b2c8f7ad8e070f149bc19b0fc25f0497726";
  B "7a391b2c8f7ad8e070f149bc19b0fc25f04977267a391b2c8f7ad8e070f149bc19b0fc25f04977267a391b2c8f7ad8e070f149bc19b0fc25f04977267a391b2c8f7ad8e070f149bc19b0fc25f04977267a391b2c8f7ad8e070f149bc19b0fc25f04977267a391b2c8f7ad8e070f149bc19b0fc25f0497726";
  B "7a391b2c8f7ad8e070f149bc19b0fc25f04977267a391b2c8f7ad8e070f149bc19b0fc25f04977267a391b2c8f7ad8e070f149bc19b0fc25f04977267a391b2c8f7ad8e070f149bc19b0fc25f04977267a391b2c8f7ad8e070f149bc19b0fc25f04977267a391b2c8f7ad8e070f149bc19b0fc25f0497726";
  B "7a391b2c8f7ad8e070f149bc19b0fc25f04977267a391b2c8f7ad8e070f149bc19b0fc25f04977267a391b2c8f7ad8e070f149bc19b0fc25f04977267a391b2c8f7ad8e070f149bc19b0fc25f04977267a391b2c8f7ad8e070f149bc19b0fc25f04977267a391b2c8f7ad8e070f149bc19b0fc25f0497726";
  B "7a391b2c8f7ad8e070f149bc19b0fc25f04977267a391b2c8f7ad8e070f149bc19b0fc25f04977267a391b2c8f7ad8e070f149bc19b0fc25f04977267a391b2c8f7ad8e070f149bc19b0fc25f04977267a391b2c8f7ad8e070f149bc19b0fc25f04977267a391b2c8f7ad8e070f149bc19b0fc25f0497726";
  B "7a391b2c8f7ad8e070f149bc19b0fc25f04977267a391b2c8f7ad8e070f149bc19b0fc25f04977267a391b2c8f7ad8e070f149bc19b0fc25f04977267a391b2c8f7ad8e070f149bc19b0fc25f04977267a391b2c8f7ad8e070f149bc19b0fc25f04977267a391b2c8f7ad8e070f149bc19b0fc25f0497726";
  B "7a391b2c8f7ad8e070f149bc19b0fc25f04977267a391b2c8f7ad8e070f149bc19b0fc25f04977267a391b2c8f7ad8e070f149bc19b0fc25f04977267a391b2c8f7ad8e070f149bc19b0fc25f04977267a391b2c8f7ad8e070f149bc19b0fc25f04977267a391b2c8f7ad8e070f149bc19b0fc25f0497726";
  B "7a391b2c8f7ad8e070f149bc19b0fc25f04977267a391b2c8f7ad8e070f149bc19b0fc25f04977267a391b2c8f7ad8e070f149bc19b0fc25f04977267a391b2c8f7ad8e070f149bc19b0fc25f04977267a391b2c8f7ad8e070f149bc19b0fc25f04977267a391b2c8f7ad8e070f149bc19b0fc25f0497726";
  B "7a391b2c8f7ad8e070f149bc19b0fc25f04977267a391b2c8f7ad8e070f149bc19b0fc25f04977267a391b2c8f7ad8e070f149bc19b0fc25f04977267a391b2c8f7ad8e070f149bc19b0fc25f04977267a391b2c8f7ad8e070f149bc19b0fc25f04977267a391b2c8f7ad8e070f149bc19b0fc25f0497726";
  B "7a391b2c8f7ad8e070f149bc19b0fc25f04977267a391b2c8f7ad8e070f149bc19b0fc25f04977267a391b2c8f7ad8e070f149bc19b0fc25f04977267a391b2c8f7ad8e070f149bc19b0fc25f04977267a391b2c8f7ad8e070f149bc19b0fc25f04977267a391b2c8f7ad8e070f149bc19b0fc25f0497726";
  B "7a391b2c8f7ad8e070f149bc19b0fc25f04977267a391b2c8f7ad8e070f149bc19b0fc25f04977267a391b2c8f7ad8e070f149bc19b0fc25f04977267a391b2c8f7ad8e070f149bc19b0fc25f04977267a391b2c8f7ad8e070f149bc19b0fc25f04977267a391b2c8f7ad8e070f149bc19b0fc25f0497726";
  B "7a391b2c8f7ad8e070f149bc19b0fc25f04977267a391b2c8f7ad8e070f149bc19b0fc25f04977267a391b2c8f7ad8e070f149bc19b0fc25f04977267a391b2c8f7ad8e070f149bc19b0fc25f04977267a391b2c8f7ad8e070f149bc19b0fc25f04977267a391b2c8f7ad8e070f149bc19b0fc25f0497726";
  B "7a391b2c8f7ad8e070f149bc19b0fc25f04977267a391b2c8f7ad8e070f149bc19b0fc25f04977267a391b2c8f7ad8e070f149bc19b0fc25f04977267a391b2c8f7ad8e070f149bc19b0fc25f04977267a391b2c8f7ad8e070f149bc19b0fc25f04977267a391b2c8f7ad8e070f149bc19b0fc25f0497726";
  B "7a391b2c8f7ad8e070f149bc19b0fc25f04977267a391b2c8f7ad8e070f149bc19b0fc25f04977267a391b2c8f7ad8e070f149bc19b0fc25f04977267a391b2c8f7ad8e070f149bc19b0fc25f04977267a391b2c8f7ad8e070f149bc19b0fc25f04977267a391b2c8f7ad8e070f149bc19b0fc25f0497726";
  B "7a391b2c8f7ad8e070f149bc19b0fc25f04977267a391b2c8f7ad8e070f149bc19b0fc25f04977267a391b2c8f7ad8e070f149bc19b0fc25f04977267a391b2c8f7ad8e070f149bc19b0fc25f04977267a391b2c8f7ad8e070f149bc19b0fc25f04977267a391b2c8f7ad8e070f149bc19b0fc25f0497726";
  B "7a391b2c8f7ad8e070f149bc19b0fc25f04977267a391b2c8f7ad8e070f149bc19b0fc25f04977267a391b2c8f7ad8e070f149bc19b0fc25f04977267a391b2c8f7ad8e070f149bc19b0fc25f04977267a391b2c8f7ad8e070f149bc19b0fc25f04977267a391b2c8f7ad8e070f149bc19b0fc25f0497726";
  B "7a391b2c8f7ad8e070f149bc19b0fc25f04977267a391b2c8f7ad8e070f149bc19b0fc25f04977267a391b2c8f7ad8e070f149bc19b0fc25f04977267a391b2c8f7ad8e070f149bc19b0fc25f04977267a391b2c8f7ad8e070f149bc19b0fc25f04977267a391b2c8f7ad8e070f149bc19b0fc25f0497726";
  B "7a391b2c8f7ad8e070f149bc19b0fc25f04977267a391b2c8f7ad8e070f149bc19b0fc25f04977267a391b2c8f7ad8e070f149bc19b0fc25f04977267a391b2c8f7ad8e070f149bc19b0fc25f04977267a391b2c8f7ad8e070f149bc19b0fc25f04977267a391b2c8f7ad8e070f149bc19b0fc25f0497726";
  B "7a391b2c8f7ad8e070f149bc19b0fc25f04977267a391b2c8f7ad8e070f149bc19b0fc25f04977267a391b2c8f7ad8e070f149bc19b0fc25f04977267a391b2c8f7ad8e070f149bc19b0fc25f04977267a391b2c8f7ad8e070f149bc19b0fc25f04977267a391b2c8f7ad8e070f149bc19b0fc25f0497726";
  B "7a391b2c8f7ad8e070f149bc19b0fc25f04977267a391b2c8f7ad8e070f149bc19b0fc25f04977267a391b2c8f7ad8e070f149bc19b0fc25f04977267a391b2c8f7ad8e070f149bc19b0fc25f04977267a391b2c8f7ad8e070f149bc19b0fc25f04977267a391b2c8f7ad8e070f149bc19b0fc25f0497726";
  B "7a391b2c8f7ad8e070f149bc19b0fc25f04977267a391b2c8f7ad8e070f149bc19b0fc25f04977267a391b2c8f7ad8e070f149bc19b0fc25f04977267a391b2c8f7ad8e070f149bc19b0fc25f04977267a391b2c8f7ad8e070f149bc19b0fc25f04977267a391b2c8f7ad8e070f149bc19b0fc25f0497726";
  B "7a391b2c8f7ad8e070f149bc19b0fc25f04977267a391b2c8f7ad8e070f149bc19b0fc25f04977267a391b2c8f7ad8e070f149bc19b0fc25f04977267a391b2c8f7ad8e070f149bc19b0fc25f04977267a391b2c8f7ad8e070f149bc19b0fc25f04977267a391b2c8f7ad8e070f149bc19b0fc25f0497726";
  B "7a391b2c8f7ad8e070f149bc19b0fc25f04977267a391b2c8f7ad8e070f149bc19b0fc25f04977267a391b2c8f7ad8e070f149bc19b0fc25f04977267a391b2c8f7ad8e070f149bc19b0fc25f04977267a391b2c8f7ad8e070f149bc19b0fc25f04977267a391b2c8f7ad8e070f149bc19b0fc25f0497726";
  B "7a391b2c8f7ad8e070f149bc19b0fc25f04977267a391b2c8f7ad8e070f149bc19b0fc25f04977267a391b2c8f7ad8e070f149bc19b0fc25f04977267a391b2c8f7ad8e070f149bc19b0fc25f04977267a391b2c8f7ad8e070f149bc19b0fc25f04977267a391b2c8f7ad8e070f149bc19b0fc25f0497726";
  B "7a391b2c8f7ad8e070f149bc19b0fc25f04977267a391b2c8f7ad8e070f149bc19b0fc25f04977267a391b2c8f7ad8e070f149bc19b0fc25f04977267a391b2c8f7ad8e070f149bc19b0fc25f04977267a391b2c8f7ad8e070f149bc19b0fc25f04977267a391b2c8f7ad8e070f149bc19b0fc25f0497726";
  B "7a391b2c8f7ad8e070f149bc19b0fc25f04977267a391b2c8f7ad8e070f149bc19b0fc25f04977267a391b2c8f7ad8e070f149bc19b0fc25f04977267a391b2c8f7ad8e070f149bc19b0fc25f04977267a391b2c8f7ad8e070f149bc19b0fc25f04977267a391b2c8f7ad8e070f149bc19b0fc25f0497726";
  B "7a391b2c8f7ad8e070f149bc19b0fc25f04977267a391b2c8f7ad8e070f149bc19b0fc25f04977267a391b2c8f7ad8e070f149bc19b0fc25f04977267a391b2c8f7ad8e070f149bc19b0fc25f04977267a391b2c8f7ad8e070f149bc19b0fc25f04977267a391b2c8f7ad8e070f149bc19b0fc25f0497726";
  B "7a391b2c8f7ad8e070f149bc19b0fc25f04977267a391b2c8f7ad8e070f149bc19b0fc25f04977267a391b2c8f7ad8e070f149bc19b0fc25f04977267a391b2c8f7ad8e070f149bc19b0fc25f04977267a391b2c8f7ad8e070f149bc19b0fc25f04977267a391b2c8f7ad8e070f149bc19b0fc25f0497726";
  B "7a391b2c8f7ad8e070f149bc19b0fc25f04977267a391b2c8f7ad8e070f149bc19b0fc25f04977267a391b2c8f7ad8e070f149bc19b0fc25f04977267a391b2c8f7ad8e070f149bc19b0fc25f04977267a391b2c8f7ad8e070f149bc19b0fc25f04977267a391b2c8f7ad8e070f149bc19b0fc25f0497726";
  B "7a391b2c8f7ad8e070f149bc19b0fc25f04977267a391b2c8f7ad8e070f149bc19b0fc25f04977267a391b2c8f7ad8e070f149bc19b0fc25f04977267a391b2c8f7ad8e070f149bc19b0fc25f04977267a391b2c8f7ad8e070f149bc19b0fc25f04977267a391b2c8f7ad8e070f149bc19b0fc25f0497726";
  B "7a391b2c8f7ad8e070f149bc19b0fc25f04977267a391b2c8f7ad8e070f149bc19b0fc25f04977267a391b2c8f7ad8e070f149bc19b0fc25f04977267a391b2c8f7ad8e070f149bc19b0fc25f04977267a391b2c8f7ad8e070f149bc19b0fc25f04977267a391b2c8f7ad8e070f149bc19b0fc25f0497726";
  B "7a391b2c8f7ad8e070f149bc19b0fc25f04977267a391b2c8f7ad8e070f149bc19b0fc25f04977267a391b2c8f7ad8e070f149bc19b0fc25f04977267a391b2c8f7ad8e070f149bc19b0fc25f04977267a391b2c8f7ad8e070f149bc19b0fc25f04977267a391b2c8f7ad8e070f149bc19b0fc25f0497726";
  B "7a391b2c8f7ad8e070f149bc19b0fc25f04977267a391b2c8f7ad8e070f149bc19b0fc25f04977267a391b2c8f7ad8e070f149bc19b0fc25f04977267a391b2c8f7ad8e070f149bc19b0fc25f04977267a391b2c8f7ad8e070f149bc19b0fc25f04977267a391b2c8f7ad8e070f149bc19b0fc25f0497726";
  B "7a391b2c8f7ad8e070f149bc19b0fc25f04977267a391b2c8f7ad8e070f149bc19b0fc25f04977267a391b2c8f7ad8e070f149bc19b0fc25f04977267a391b2c8f7ad8e070f149bc19b0fc25f04977267a391b2c8f7ad8e070f149bc19b0fc25f04977267a391b2c8f7ad8e070f149bc19b0fc25f0497726";
  B "7a391b2c8f7ad8e070f149bc19b0fc25f04977267a391b2c8f7ad8e070f149bc19b0fc25f04977267a391b2c8f7ad8e070f149bc19b0fc25f04977267a391b2c8f7ad8e070f149bc19b0fc25f04977267a391b2c8f7ad8e070f149bc19b0fc25f04977267a391b2c8f7ad8e070f149bc19b0fc25f0497726";
  B "7a391b2c8f7ad8e070f149bc19b0fc25f04977267a391b2c8f7ad8e070f149bc19b0fc25f04977267a391b2c8f7ad8e070f149bc19b0fc25f04977267a391b2c8f7ad8e070f149bc19b0fc25f04977267a391b2c8f7ad8e070f149bc19b0fc25f04977267a391b2c8f7ad8e070f149bc19b0fc25f0497726";
  B "7a391b2c8f7ad8e070f149bc19b0fc25f04977267a391b2c8f7ad8e070f149bc19b0fc25f04977267a391b2c8f7ad8e070f149bc19b0fc25f04977267a391b2c8f7ad8e070f149bc19b0fc25f04977267a391b2c8f7ad8e070f149bc19b0fc25f04977267a391b2c8f7ad8e070f149bc19b0fc25f0497726";
  B "7a391b2c8f7ad8e070f149bc19b0fc25f04977267a391b2c8f7ad8e070f149bc19b0fc25f04977267a391b2c8f7ad8e070f149bc19b0fc25f04977267a391b2c8f7ad8e070f149bc19b0fc25f04977267a391b2c8f7ad8e070f149bc19b0fc25f04977267a391b2c8f7ad8e070f149bc19b0fc25f0497726";
  B "7a391b2c8f7ad8e070f149bc19b0fc25f04977267a391b2c8f7ad8e070f149bc19b0fc25f04977267a391b2c8f7ad8e070f149bc19b0fc25f04977267a391b2c8f7ad8e070f149bc19b0fc25f04977267a391b2c8f7ad8e070f149bc19b0fc25f04977267a391b2c8f7ad8e070f149bc19b0fc25f0497726";
  B "7a391b2c8f7ad8e070f149bc19b0fc25f04977267a391b2c8f7ad8e070f149bc19b0fc25f04977267a391b2c8f7ad8e070f149bc19b0fc25f04977267a391b2c8f7ad8e070f149bc19b0fc25f04977267a391b2c8f7ad8e070f149bc19b0fc25f04977267a391b2c8f7ad8e070f149bc19b0fc25f0497726";
  B "7a391b2c8f7ad8e070f149bc19b0fc25f04977267a391b2c8f7ad8e070f149bc19b0fc25f04977267a391b2c8f7ad8e070f149bc19b0fc25f04977267a391b2c8f7ad8e070f149bc19b0fc25f04977267a391b2c8f7ad8e070f149bc19b0fc25f04977267a391b2c8f7ad8e070f149bc19b0fc25f0497726";
  B "7a391b2c8f7ad8e070f149bc19b0fc25f04977267a391b2c8f7ad8e070f149bc19b0fc25f04977267a391b2c8f7ad8e070f149bc19b0fc25f04977267a391b2c8f7ad8e070f149bc19b0fc25f04977267a391b2c8f7ad8e070f149bc19b0fc25f04977267a391b2c8f7ad8e070f149bc19b0fc25f0497726";
  B "7a391b2c8f7ad8e070f149bc19b0fc25f04977267a391b2c8f7ad8e070f149bc19b0fc25f04977267a391b2c8f7ad8e070f149bc19b0fc25f04977267a391b2c8f7ad8e070f149bc19b0fc25f04977267a391b2c8f7ad8e070f149bc19b0fc25f04977267a391b2c8f7ad8e070f149bc19b0fc25f0497726";
  B "7a391b2c8f7ad8e070f149bc19b0fc25f04977267a391b2c8f7ad8e070f149bc19b0fc25f04977267a391b2c8f7ad8e070f149bc19b0fc25f04977267a391b2c8f7ad8e070f149bc19b0fc25f04977267a391b2c8f7ad8e070f149bc19b0fc25f04977267a391b2c8f7ad8e070f149bc19b0fc25f0497726";
  B "7a391b2c8f7ad8e070f149bc19b0fc25f04977267a391b2c8f7ad8e070f149bc19b0fc25f04977267a391b2c8f7ad8e070f149bc19b0fc25f04977267a391b2c8f7ad8e070f149bc19b0fc25f04977267a391b2c8f7ad8e070f149bc19b0fc25f04977267a391b2c8f7ad8e070f149bc19b0fc25f0497726";
  B "7a391b2c8f7ad8e070f149bc19b0fc25f04977267a391b2c8f7ad8e070f149bc19b0fc25f04977267a391b2c8f7ad8e070f149bc19b0fc25f04977267a391b2c8f7ad8e070f149bc19b0fc25f04977267a391b2c8f7ad8e070f149bc19b0fc25f04977267a391b2c8f7ad8e070f149bc19b0fc25f0497726";
  B "7a391b2c8f7ad8e070f149bc19b0fc25f04977267a391b2c8f7ad8e070f149bc19b0fc25f04977267a391b2c8f7ad8e070f149bc19b0fc25f04977267a391b2c8f7ad8e070f149bc19b0fc25f04977267a391b2c8f7ad8e070f149bc19b0fc25f04977267a391b2c8f7ad8e070f149bc19b0fc25f0497726";
  B "7a391b2c8f7ad8e070f149bc19b0fc25f04977267a391b2c8f7ad8e070f149bc19b0fc25f04977267a391b2c8f7ad8e070f149bc19b0fc25f04977267a391b2c8f7ad8e070f149bc19b0fc25f04977267a391b2c8f7ad8e070f149bc19b0fc25f04977267a391b2c8f7ad8e070f149bc19b0fc25f0497726";
  B "7a391b2c8f7ad8e070f149bc19b0fc25f04977267a391b2c8f7ad8e070f149bc19b0fc25f04977267a391b2c8f7ad8e070f149bc19b0fc25f04977267a391b2c8f7ad8e070f149bc19b0fc25f04977267a391b2c8f7ad8e070f149bc19b0fc25f04977267a391b2c8f7ad8e070f149bc19b0fc25f0497726";
  B "7a391b2c8f7ad8e070f149bc19b0fc25f04977267a391b2c8f7ad8e070f149bc19b0fc25f04977267a391b2c8f7ad8e070f149bc19b0fc25f04977267a391b2c8f7ad8e070f149bc19b0fc25f04977267a391b2c8f7ad8e070f149bc19b0fc25f04977267a391b2c8f7ad8e070f149bc19b0fc25f0497726";
  B "7a391b2c8f7ad8e070f149bc19b0fc25f04977267a391b2c8f7ad8e070f149bc19b0fc25f04977267a391b2c8f7ad8e070f149bc19b0fc25f04977267a391b2c8f7ad8e070f149bc19b0fc25f04977267a391b2c8f7ad8e070f149bc19b0fc25f04977267a391b2c8f7ad8e070f149bc19b0fc25f0497726";
  B "7a391b2c8f7ad8e070f149bc19b0fc25f04977267a391b2c8f7ad8e070f149bc19b0fc25f04977267a391b2c8f7ad8e070f149bc19b0fc25f04977267a391b2c8f7ad8e070f149bc19b0fc25f04977267a391b2c8f7ad8e070f149bc19b0fc25f04977267a391b2c8f7ad8e070f149bc19b0fc25f0497726";
  B "7a391b2c8f7ad8e070f149bc19b0fc25f04977267a391b2c8f7ad8e070f149bc19b0fc25f04977267a391b2c8f7ad8e070f149bc19b0fc25f04977267a391b2c8f7ad8e070f149bc19b0fc25f04977267a391b2c8f7ad8e070f149bc19b0fc25f04977267a391b2c8f7ad8e070f149bc19b0fc25f0497726";
  B "7a391b2c8f7ad8e070f149bc19b0fc25f04977267a391b2c8f7ad8e070f149bc19b0fc25f04977267a391b2c8f7ad8e070f149bc19b0fc25f04977267a391b2c8f7ad8e070f149bc19b0fc25f04977267a391b2c8f7ad8e070f149bc19b0fc25f04977267a391b2c8f7ad8e070f149bc19b0fc25f0497726";
  B "7a391b2c8f7ad8e070f149bc19b0fc25f04977267a391b2c8f7ad8e070f149bc19b0fc25f04977267a391b2c8f7ad8e070f149bc19b0fc25f04977267a391b2c8f7ad8e070f149bc19b0fc25f04977267a391b2c8f7ad8e070f149bc19b0fc25f04977267a391b2c8f7ad8e070f149bc19b0fc25f0497726";
  B "7a391b2c8f7ad8e070f149bc19b0fc25f04977267a391b2c8f7ad8e070f149bc19b0fc25f04977267a391b2c8f7ad8e070f149bc19b0fc25f04977267a391b2c8f7ad8e070f149bc19b0fc25f04977267a391b2c8f7ad8e070f149bc19b0fc25f04977267a391b2c8f7ad8e070f149bc19b0fc25f0497726";
  B "7a391b2c8f7ad8e070f149bc19b0fc25f04977267a391b2c8f7ad8e070f149bc19b0fc25f04977267a391b2c8f7ad8e070f149bc19b0fc25f04977267a391b2c8f7ad8e070f149bc19b0fc25f04977267a391b2c8f7ad8e070f149bc19b0fc25f04977267a391b2c8f7ad8e070f149bc19b0fc25f0497726";
  B "7a391b2c8f7ad8e070f149bc19b0fc25f04977267a391b2c8f7ad8e070f149bc19b0fc25f04977267a391b2c8f7ad8e070f149bc19b0fc25f04977267a391b2c8f7ad8e070f149bc19b0fc25f04977267a391b2c8f7ad8e070f149bc19b0fc25f04977267a391b2c8f7ad8e070f149bc19b0fc25f0497726";
  B "7a391b2c8f7ad8e070f149bc19b0fc25f04977267a391b2c8f7ad8e070f149bc19b0fc25f04977267a391b2c8f7ad8e070f149bc19b0fc25f04977267a391b2c8f7ad8e070f149bc19b0fc25f04977267a391b2c8f7ad8e070f149bc19b0fc25f04977267a391b2c8f7ad8e070f149bc19b0fc25f0497726";
  B "7a391b2c8f7ad8e070f149bc19b0fc25f04977267a391b2c8f7ad8e070f149bc19b0fc25f04977267a391b2c8f7ad8e070f149bc19b0fc25f04977267a391b2c8f7ad8e070f149bc19b0fc25f04977267a391b2c8f7ad8e070f149bc19b0fc25f04977267a391b2c8f7ad8e070f149bc19b0fc25f0497726";
  B "7a391b2c8f7ad8e070f149bc19b0fc25f04977267a391b2c8f7ad8e070f149bc19b0fc25f04977267a391b2c8f7ad8e070f149bc19b0fc25f04977267a391b2c8f7ad8e070f149bc19b0fc25f04977267a391b2c8f7ad8e070f149bc19b0fc25f04977267a391b2c8f7ad8e070f149bc19b0fc25f0497726";
  B "7a391b2c8f7ad8e070f149bc19b0fc25f04977267a391b2c8f7ad8e070f149bc19b0fc25f04977267a391b2c8f7ad8e070f149bc19b0fc25f04977267a391b2c8f7ad8e070f149bc19b0fc25f04977267a391b2c8f7ad8e070f149bc19b0fc25f04977267a391b2c8f7ad8e070f149bc19b0fc25f0497726";
  B "7a391b2c8f7ad8e070f149bc19b0fc25f04977267a391b2c8f7ad8e070f149bc19b0fc25f04977267a391b2c8f7ad8e070f149bc19b0fc25f04977267a391b2c8f7ad8e070f149bc19b0fc25f04977267a391b2c8f7ad8e070f149bc19b0fc25f04977267a391b2c8f7ad8e070f149bc19b0fc25f0497726";
  B "7a391b2c8f7ad8e070f149bc19b0fc25f04977267a391b2c8f7ad8e070f149bc19b0fc25f04977267a391b2c8f7ad8e070f149bc19b0fc25f04977267a391b2c8f7ad8e070f149bc19b0fc25f04977267a391b2c8f7ad8e070f149bc19b0fc25f04977267a391b2c8f7ad8e070f149bc19b0fc25f0497726";
  B "7a391b2c8f7ad8e070f149bc19b0fc25f04977267a391b2c8f7ad8e070f149bc19b0fc25f04977267a391b2c8f7ad8e070f149bc19b0fc25f04977267a391b2c8f7ad8e070f149bc19b0fc25f04977267a391b2c8f7ad8e070f149bc19b0fc25f04977267a391b2c8f7ad8e070f149bc19b0fc25f0497726";
  B "7a391b2c8f7ad8e070f149bc19b0fc25f04977267a391b2c8f7ad8e070f149bc19b0fc25f04977267a391b2c8f7ad8e070f149bc19b0fc25f04977267a391b2c8f7ad8e070f149bc19b0fc25f04977267a391b2c8f7ad8e070f149bc19b0fc25f04977267a391b2c8f7ad8e070f149bc19b0fc25f0497726";
  B "7a391b2c8f7ad8e070f149bc19b0fc25f04977267a391b2c8f7ad8e070f149bc19b0fc25f04977267a391b2c8f7ad8e070f149bc19b0fc25f04977267a391b2c8f7ad8e070f149bc19b0fc25f04977267a391b2c8f7ad8e070f149bc19b0fc25f04977267a391b2c8f7ad8e070f149bc19b0fc25f0497726";
  B "7a391b2c8f7ad8e070f149bc19b0fc25f04977267a391b2c8f7ad8e070f149bc19b0fc25f04977267a391b2c8f7ad8e070f149bc19b0fc25f04977267a391b2c8f7ad8e070f149bc19b0fc25f04977267a391b2c8f7ad8e070f149bc19b0fc25f04977267a391b2c8f7ad8e070f149bc19b0fc25f0497726";
  B "7a391b2c8f7ad8e070f149bc19b0fc25f04977267a391b2c8f7ad8e070f149bc19b0fc25f04977267a391b2c8f7ad8e070f149bc19b0fc25f04977267a391b2c8f7ad8e070f149bc19b0fc25f04977267a391b2c8f7ad8e070f149bc19b0fc25f04977267a391b2c8f7ad8e070f149bc19b0fc25f0497726";
  B "7a391b2c8f7ad8e070f149bc19b0fc25f04977267a391b2c8f7ad8e070f149bc19b0fc25f04977267a391b2c8f7ad8e070f149bc19b0fc25f04977267a391b2c8f7ad8e070f149bc19b0fc25f04977267a391b2c8f7ad8e070f149bc19b0fc25f04977267a391b2c8f7ad8e070f149bc19b0fc25f0497726";
  B "7a391b2c8f7ad8e070f149bc19b0fc25f04977267a391b2c8f7ad8e070f149bc19b0fc25f04977267a391b2c8f7ad8e070f149bc19b0fc25f04977267a391b2c8f7ad8e070f149bc19b0fc25f04977267a391b2c8f7ad8e070f149bc19b0fc25f04977267a391b2c8f7ad8e070f149bc19b0fc25f0497726";
  B "7a391b2c8f7ad8e070f149bc19b0fc25f04977267a391b2c8f7ad8e070f149bc19b0fc25f04977267a391b2c8f7ad8e070f149bc19b0fc25f04977267a391b2c8f7ad8e070f149bc19b0fc25f04977267a391b2c8f7ad8e070f149bc19b0fc25f04977267a391b2c8f7ad8e070f149bc19b0fc25f0497726";
  B "7a391b2c8f7ad8e070f149bc19b0fc25f04977267a391b2c8f7ad8e070f149bc19b0fc25f04977267a391b2c8f7ad8e070f149bc19b0fc25f04977267a391b2c8f7ad8e070f149bc19b0fc25f04977267a391b2c8f7ad8e070f149bc19b0fc25f04977267a391b2c8f7ad8e070f149bc19b0fc25f0497726";
  B "7a391b2c8f7ad8e070f149bc19b0fc25f04977267a391b2c8f7ad8e070f149bc19b0fc25f04977267a391b2c8f7ad8e070f149bc19b0fc25f04977267a391b2c8f7ad8e070f149bc19b0fc25f04977267a391b2c8f7ad8e070f149bc19b0fc25f04977267a391b2c8f7ad8e070f149bc19b0fc25f0497726";
  B "7a391b2c8f7ad8e070f149bc19b0fc25f04977267a391b2c8f7ad8e070f149bc19b0fc25f04977267a391b2c8f7ad8e070f149bc19b0fc25f04977267a391b2c8f7ad8e070f149bc19b0fc25f04977267a391b2c8f7ad8e070f149bc19b0fc25f04977267a391b2c8f7ad8e070f149bc19b0fc25f0497726";
  B "7a391b2c8f7ad8e070f149bc19b0fc25f04977267a391b2c8f7ad8e070f149bc19b0fc25f04977267a391b2c8f7ad8e070f149bc19b0fc25f04977267a391b2c8f7ad8e070f149bc19b0fc25f04977267a391b2c8f7ad8e070f149bc19b0fc25f04977267a391b2c8f7ad8e070f149bc19b0fc25f0497726";
  B "7a391b2c8f7ad8e070f149bc19b0fc25f04977267a391b2c8f7ad8e070f149bc19b0fc25f04977267a391b2c8f7ad8e070f149bc19b0fc25f04977267a391b2c8f7ad8e070f149bc19b0fc25f04977267a391b2c8f7ad8e070f149bc19b0fc25f04977267a391b2c8f7ad8e070f149bc19b0fc25f0497726";
  B "7a391b2c8f7ad8e070f149bc19b0fc25f04977267a391b2c8f7ad8e070f149bc19b0fc25f04977267a391b2c8f7ad8e070f149bc19b0fc25f04977267a391b2c8f7ad8e070f149bc19b0fc25f04977267a391b2c8f7ad8e070f149bc19b0fc25f04977267a391b2c8f7ad8e070f149bc19b0fc25f0497726";
  B "7a391b2c8f7ad8e070f149bc19b0fc25f04977267a391b2c8f7ad8e070f149bc19b0fc25f04977267a391b2c8f7ad8e070f149bc19b0fc25f04977267a391b2c8f7ad8e070f149bc19b0fc25f04977267a391b2c8f7ad8e070f149bc19b0fc25f04977267a391b2c8f7ad8e070f149bc19b0fc25f0497726";
  B "7a391b2c8f7ad8e070f149bc19b0fc25f04977267a391b2c8f7ad8e070f149bc19b0fc25f04977267a391b2c8f7ad8e070f149bc19b0fc25f04977267a391b2c8f7ad8e070f149bc19b0fc25f04977267a391b2c8f7ad8e070f149bc19b0fc25f04977267a391b2c8f7ad8e070f149bc19b0fc25f0497726";
  B "7a391b2c8f7ad8e070f149bc19b0fc25f04977267a391b2c8f7ad8e070f149bc19b0fc25f04977267a391b2c8f7ad8e070f149bc19b0fc25f04977267a391b2c8f7ad8e070f149bc19b0fc25f04977267a391b2c8f7ad8e070f149bc19b0fc25f04977267a391b2c8f7ad8e070f149bc19b0fc25f0497726";
  B "7a391b2c8f7ad8e070f149bc19b0fc25f04977267a391b2c8f7ad8e070f149bc19b0fc25f04977267a391b2c8f7ad8e070f149bc19b0fc25f04977267a391b2c8f7ad8e070f149bc19b0fc25f04977267a391b2c8f7ad8e070f149bc19b0fc25f04977267a391b2c8f7ad8e070f149bc19b0fc25f0497726";
  B "7a391b2c8f7ad8e070f149bc19b0fc25f04977267a391b2c8f7ad8e070f149bc19b0fc25f04977267a391b2c8f7ad8e070f149bc19b0fc25f04977267a391b2c8f7ad8e070f149bc19b0fc25f04977267a391b2c8f7ad8e070f149bc19b0fc25f04977267a391b2c8f7ad8e070f149bc19b0fc25f0497726";
  B "7a391b2c8f7ad8e070f149bc19b0fc25f04977267a391b2c8f7ad8e070f149bc19b0fc25f04977267a391b2c8f7ad8e070f149bc19b0fc25f04977267a391b2c8f7ad8e070f149bc19b0fc25f04977267a391b2c8f7ad8e070f149bc19b0fc25f04977267a391b2c8f7ad8e070f149bc19b0fc25f0497726";
  B "7a391b2c8f7ad8e070f149bc19b0fc25f04977267a391b2c8f7ad8e070f149bc19b0fc25f04977267a391b2c8f7ad8e070f149bc19b0fc25f04977267a391b2c8f7ad8e070f149bc19b0fc25f04977267a391b2c8f7ad8e070f149bc19b0fc25f04977267a391b2c8f7ad8e070f149bc19b0fc25f0497726";
  B "7a391b2c8f7ad8e070f149bc19b0fc25f04977267a391b2c8f7ad8e070f149bc19b0fc25f04977267a391b2c8f7ad8e070f149bc19b0fc25f04977267a391b2c8f7ad8e070f149bc19b0fc25f04977267a391b2c8f7ad8e070f149bc19b0fc25f04977267a391b2c8f7ad8e070f149bc19b0fc25f0497726";
  B "7a391b2c8f7ad8e070f149bc19b0fc25f04977267a391b2c8f7ad8e070f149bc19b0fc25f04977267a391b2c8f7ad8e070f149bc19b0fc25f04977267a391b2c8f7ad8e070f149bc19b0fc25f04977267a391b2c8f7ad8e070f149bc19b0fc25f04977267a391b2c8f7ad8e070f149bc19b0fc25f0497726";
  B "7a391b2c8f7ad8e070f149bc19b0fc25f04977267a391b2c8f7ad8e070f149bc19b0fc25f04977267a391b2c8f7ad8e070f149bc19b0fc25f04977267a391b2c8f7ad8e070f149bc19b0fc25f04977267a391b2c8f7ad8e070f149bc19b0fc25f04977267a391b2c8f7ad8e070f149bc19b0fc25f0497726";
  B "7a391b2c8f7ad8e070f149bc19b0fc25f04977267a391b2c8f7ad8e070f149bc19b0fc25f04977267a391b2c8f7ad8e070f149bc19b0fc25f04977267a391b2c8f7ad8e070f149bc19b0fc25f04977267a391b2c8f7ad8e070f149bc19b0fc25f04977267a391b2c8f7ad8e070f149bc19b0fc25f0497726";
  B "7a391b2c8f7ad8e070f149bc19b0fc25f04977267a391b2c8f7ad8e070f149bc19b0fc25f04977267a391b2c8f7ad8e070f149bc19b0fc25f04977267a391b2c8f7ad8e070f149bc19b0fc25f04977267a391b2c8f7ad8e070f149bc19b0fc25f04977267a391b2c8f7ad8e070f149bc19b0fc25f0497726";
  B "7a391b2c8f7ad8e070f149bc19b0fc25f04977267a391b2c8f7ad8e070f149bc19b0fc25f04977267a391b2c8f7ad8e070f149bc19b0fc25f04977267a391b2c8f7ad8e070f149bc19b0fc25f04977267a391b2c8f7ad8e070f149bc19b0fc25f04977267a391b2c8f7ad8e070f149bc19b0fc25f0497726";
  B "7a391b2c8f7ad8e070f149bc19b0fc25f04977267a391b2c8f7ad8e070f149bc19b0fc25f04977267a391b2c8f7ad8e070f149bc19b0fc25f04977267a391b2c8f7ad8e070f149bc19b0fc25f04977267a391b2c8f7ad8e070f149bc19b0fc25f04977267a391b2c8f7ad8e070f149bc19b0fc25f0497726";
  B "7a391b2c8f7ad8e070f149bc19b0fc25f04977267a391b2c8f7ad8e070f149bc19b0fc25f04977267a391b2c8f7ad8e070f149bc19b0fc25f04977267a391b2c8f7ad8e070f149bc19b0fc25f04977267a391b2c8f7ad8e070f149bc19b0fc25f04977267a391b2c8f7ad8e070f149bc19b0fc25f0497726";
  B "7a391b2c8f7ad8e070f149bc19b0fc25f04977267a391b2c8f7ad8e070f149bc19b0fc25f04977267a391b2c8f7ad8e070f149bc19b0fc25f04977267a391b2c8f7ad8e070f149bc19b0fc25f04977267a391b2c8f7ad8e070f149bc19b0fc25f04977267a391b2c8f7ad8e070f149bc19b0fc25f0497726";
  B "7a391b2c8f7ad8e070f149bc19b0fc25f04977267a391b2c8f7ad8e070f149bc19b0fc25f04977267a391b2c8f7ad8e070f149bc19b0fc25f04977267a391b2c8f7ad8e070f149bc19b0fc25f04977267a391b2c8f7ad8e070f149bc19b0fc25f04977267a391b2c8f7ad8e070f149bc19b0fc25f0497726";
  B "7a391b2c8f7ad8e070f149bc19b0fc25f04977267a391b2c8f7ad8e070f149bc19b0fc25f04977267a391b2c8f7ad8e070f149bc19b0fc25f04977267a391b2c8f7ad8e070f149bc19b0fc25f04977267a391b2c8f7ad8e070f149bc19b0fc25f04977267a391b2c8f7ad8e070f149bc19b0fc25f0497726";
  B "7a391b2c8f7ad8e070f149bc19b0fc25f04977267a391b2c8f7ad8e070f149bc19b0fc25f04977267a391b2c8f7ad8e070f149bc19b0fc25f04977267a391b2c8f7ad8e070f149bc19b0fc25f04977267a391b2c8f7ad8e070f149bc19b0fc25f04977267a391b2c8f7ad8e070f149bc19b0fc25f0497726";
  B "7a391b2c8f7ad8e070f149bc19b0fc25f04977267a391b2c8f7ad8e070f149bc19b0fc25f04977267a391b2c8f7ad8e070f149bc19b0fc25373a707269766174656930656565"]).
(** test/bigfile.torrent, 20754 bytes *)
Definition bigfile_torrent : bytes := List.concat (map unhex [
  B "64383a616e6e6f756e636534323a687474703a2f2f6f70656e747261636b65722e6932702e726f636b733a363936392f616e6e6f756e6365373a636f6d6d656e7432313a476f746f722074657374696e672066696c6528732931303a6372656174656420627933303a5472616e736d697373696f6e2f322e";
  B "39342028643865363065653434662931333a6372656174696f6e2064617465693136353430343838393765383a656e636f64696e67353a5554462d38343a696e666f64363a6c656e677468693130373337343138323465343a6e616d65373a62696766696c6531323a7069656365206c656e677468693130";
  B "343835373665363a70696563657332303438303aecfc8e86fdd83811f9cc9bf500993b63069923beecfc8e86fdd83811f9cc9bf500993b63069923beecfc8e86fdd83811f9cc9bf500993b63069923beecfc8e86fdd83811f9cc9bf500993b63069923beecfc8e86fdd83811f9cc9bf500993b63069923be";
  B "ecfc8e86fdd83811f9cc9bf500993b63069923beecfc8e86fdd83811f9cc9bf500993b63069923beecfc8e86fdd83811f9cc9bf500993b63069923beecfc8e86fdd83811f9cc9bf500993b63069923beecfc8e86fdd83811f9cc9bf500993b63069923beecfc8e86fdd83811f9cc9bf500993b63069923be";
  B "ecfc8e86fdd83811f9cc9bf500993b63069923beecfc8e86fdd83811f9cc9bf500993b63069923beecfc8e86fdd83811f9cc9bf500993b63069923beecfc8e86fdd83811f9cc9bf500993b63069923beecfc8e86fdd83811f9cc9bf500993b63069923beecfc8e86fdd83811f9cc9bf500993b63069923be";
  B "ecfc8e86fdd83811f9cc9bf500993b63069923beecfc8e86fdd83811f9cc9bf500993b63069923beecfc8e86fdd83811f9cc9bf500993b63069923beecfc8e86fdd83811f9cc9bf500993b63069923beecfc8e86fdd83811f9cc9bf500993b63069923beecfc8e86fdd83811f9cc9bf500993b63069923be";
  B "ecfc8e86fdd83811f9cc9bf500993b63069923beecfc8e86fdd83811f9cc9bf500993b63069923beecfc8e86fdd83811f9cc9bf500993b63069923beecfc8e86fdd83811f9cc9bf500993b63069923beecfc8e86fdd83811f9cc9bf500993b63069923beecfc8e86fdd83811f9cc9bf500993b63069923be";
  B "ecfc8e86fdd83811f9cc9bf500993b63069923beecfc8e86fdd83811f9cc9bf500993b63069923beecfc8e86fdd83811f9cc9bf500993b63069923beecfc8e86fdd83811f9cc9bf500993b63069923beecfc8e86fdd83811f9cc9bf500993b63069923beecfc8e86fdd83811f9cc9bf500993b63069923be";
  B "ecfc8e86fdd83811f9cc9bf500993b63069923beecfc8e86fdd83811f9cc9bf500993b63069923beecfc8e86fdd83811f9cc9bf500993b63069923beecfc8e86fdd83811f9cc9bf500993b63069923beecfc8e86fdd83811f9cc9bf500993b63069923beecfc8e86fdd83811f9cc9bf500993b63069923be";
  B "ecfc8e86fdd83811f9cc9bf500993b63069923beecfc8e86fdd83811f9cc9bf500993b63069923beecfc8e86fdd83811f9cc9bf500993b63069923beecfc8e86fdd83811f9cc9bf500993b63069923beecfc8e86fdd83811f9cc9bf500993b63069923beecfc8e86fdd83811f9cc9bf500993b63069923be";
  B "ecfc8e86fdd83811f9cc9bf500993b63069923beecfc8e86fdd83811f9cc9bf500993b63069923beecfc8e86fdd83811f9cc9bf500993b63069923beecfc8e86fdd83811f9cc9bf500993b63069923beecfc8e86fdd83811f9cc9bf500993b63069923beecfc8e86fdd83811f9cc9bf500993b63069923be";
  B "ecfc8e86fdd83811f9cc9bf500993b63069923beecfc8e86fdd83811f9cc9bf500993b63069923beecfc8e86fdd83811f9cc9bf500993b63069923beecfc8e86fdd83811f9cc9bf500993b63069923beecfc8e86fdd83811f9cc9bf500993b63069923beecfc8e86fdd83811f9cc9bf500993b63069923be";
  B "ecfc8e86fdd83811f9cc9bf500993b63069923beecfc8e86fdd83811f9cc9bf500993b63069923beecfc8e86fdd83811f9cc9bf500993b63069923beecfc8e86fdd83811f9cc9bf500993b63069923beecfc8e86fdd83811f9cc9bf500993b63069923beecfc8e86fdd83811f9cc9bf500993b63069923be";
  B "ecfc8e86fdd83811f9cc9bf500993b63069923beecfc8e86fdd83811f9cc9bf500993b63069923beecfc8e86fdd83811f9cc9bf500993b63069923beecfc8e86fdd83811f9cc9bf500993b63069923beecfc8e86fdd83811f9cc9bf500993b63069923beecfc8e86fdd83811f9cc9bf500993b63069923be";
  B "ecfc8e86fdd83811f9cc9bf500993b63069923beecfc8e86fdd83811f9cc9bf500993b63069923beecfc8e86fdd83811f9cc9bf500993b63069923beecfc8e86fdd83811f9cc9bf500993b63069923beecfc8e86fdd83811f9cc9bf500993b63069923beecfc8e86fdd83811f9cc9bf500993b63069923be";
  B "ecfc8e86fdd83811f9cc9bf500993b63069923beecfc8e86fdd83811f9cc9bf500993b63069923beecfc8e86fdd83811f9cc9bf500993b63069923beecfc8e86fdd83811f9cc9bf500993b63069923beecfc8e86fdd83811f9cc9bf500993b63069923beecfc8e86fdd83811f9cc9bf500993b63069923be";
  B "ecfc8e86fdd83811f9cc9bf500993b63069923beecfc8e86fdd83811f9cc9bf500993b63069923beecfc8e86fdd83811f9cc9bf500993b63069923beecfc8e86fdd83811f9cc9bf500993b63069923beecfc8e86fdd83811f9cc9bf500993b63069923beecfc8e86fdd83811f9cc9bf500993b63069923be";
  B "ecfc8e86fdd83811f9cc9bf500993b63069923beecfc8e86fdd83811f9cc9bf500993b63069923beecfc8e86fdd83811f9cc9bf500993b63069923beecfc8e86fdd83811f9cc9bf500993b63069923beecfc8e86fdd83811f9cc9bf500993b63069923beecfc8e86fdd83811f9cc9bf500993b63069923be";
  B "ecfc8e86fdd83811f9cc9bf500993b63069923beecfc8e86fdd83811f9cc9bf500993b63069923beecfc8e86fdd83811f9cc9bf500993b63069923beecfc8e86fdd83811f9cc9bf500993b63069923beecfc8e86fdd83811f9cc9bf500993b63069923beecfc8e86fdd83811f9cc9bf500993b63069923be";
  B "ecfc8e86fdd83811f9cc9bf500993b63069923beecfc8e86fdd83811f9cc9bf500993b63069923beecfc8e86fdd83811f9cc9bf500993b63069923beecfc8e86fdd83811f9cc9bf500993b63069923beecfc8e86fdd83811f9cc9bf500993b63069923beecfc8e86fdd83811f9cc9bf500993b63069923be";
  B "ecfc8e86fdd83811f9cc9bf500993b63069923beecfc8e86fdd83811f9cc9bf500993b63069923beecfc8e86fdd83811f9cc9bf500993b63069923beecfc8e86fdd83811f9cc9bf500993b63069923beecfc8e86fdd83811f9cc9bf500993b63069923beecfc8e86fdd83811f9cc9bf500993b63069923be";
  B "ecfc8e86fdd83811f9cc9bf500993b63069923beecfc8e86fdd83811f9cc9bf500993b63069923beecfc8e86fdd83811f9cc9bf500993b63069923beecfc8e86fdd83811f9cc9bf500993b63069923beecfc8e86fdd83811f9cc9bf500993b63069923beecfc8e86fdd83811f9cc9bf500993b63069923be";
  B "ecfc8e86fdd83811f9cc9bf500993b63069923beecfc8e86fdd83811f9cc9bf500993b63069923beecfc8e86fdd83811f9cc9bf500993b63069923beecfc8e86fdd83811f9cc9bf500993b63069923beecfc8e86fdd83811f9cc9bf500993b63069923beecfc8e86fdd83811f9cc9bf500993b63069923be";
  B "ecfc8e86fdd83811f9cc9bf500993b63069923beecfc8e86fdd83811f9cc9bf500993b63069923beecfc8e86fdd83811f9cc9bf500993b63069923beecfc8e86fdd83811f9cc9bf500993b63069923beecfc8e86fdd83811f9cc9bf500993b63069923beecfc8e86fdd83811f9cc9bf500993b63069923be";
  B "ecfc8e86fdd83811f9cc9bf500993b63069923beecfc8e86fdd83811f9cc9bf500993b63069923beecfc8e86fdd83811f9cc9bf500993b63069923beecfc8e86fdd83811f9cc9bf500993b63069923beecfc8e86fdd83811f9cc9bf500993b63069923beecfc8e86fdd83811f9cc9bf500993b63069923be";
  B "ecfc8e86fdd83811f9cc9bf500993b63069923beecfc8e86fdd83811f9cc9bf500993b63069923beecfc8e86fdd83811f9cc9bf500993b63069923beecfc8e86fdd83811f9cc9bf500993b63069923beecfc8e86fdd83811f9cc9bf500993b63069923beecfc8e86fdd83811f9cc9bf500993b63069923be";
  B "ecfc8e86fdd83811f9cc9bf500993b63069923beecfc8e86fdd83811f9cc9bf500993b63069923beecfc8e86fdd83811f9cc9bf500993b63069923beecfc8e86fdd83811f9cc9bf500993b63069923beecfc8e86fdd83811f9cc9bf500993b63069923beecfc8e86fdd83811f9cc9bf500993b63069923be";
  B "ecfc8e86fdd83811f9cc9bf500993b63069923beecfc8e86fdd83811f9cc9bf500993b63069923beecfc8e86fdd83811f9cc9bf500993b63069923beecfc8e86fdd83811f9cc9bf500993b63069923beecfc8e86fdd83811f9cc9bf500993b63069923beecfc8e86fdd83811f9cc9bf500993b63069923be";
  B "ecfc8e86fdd83811f9cc9bf500993b63069923beecfc8e86fdd83811f9cc9bf500993b63069923beecfc8e86fdd83811f9cc9bf500993b63069923beecfc8e86fdd83811f9cc9bf500993b63069923beecfc8e86fdd83811f9cc9bf500993b63069923beecfc8e86fdd83811f9cc9bf500993b63069923be";
  B "ecfc8e86fdd83811f9cc9bf500993b63069923beecfc8e86fdd83811f9cc9bf500993b63069923beecfc8e86fdd83811f9cc9bf500993b63069923beecfc8e86fdd83811f9cc9bf500993b63069923beecfc8e86fdd83811f9cc9bf500993b63069923beecfc8e86fdd83811f9cc9bf500993b63069923be";
  B "ecfc8e86fdd83811f9cc9bf500993b63069923beecfc8e86fdd83811f9cc9bf500993b63069923beecfc8e86fdd83811f9cc9bf500993b63069923beecfc8e86fdd83811f9cc9bf500993b63069923beecfc8e86fdd83811f9cc9bf500993b63069923beecfc8e86fdd83811f9cc9bf500993b63069923be";
  B "ecfc8e86fdd83811f9cc9bf500993b63069923beecfc8e86fdd83811f9cc9bf500993b63069923beecfc8e86fdd83811f9cc9bf500993b63069923beecfc8e86fdd83811f9cc9bf500993b63069923beecfc8e86fdd83811f9cc9bf500993b63069923beecfc8e86fdd83811f9cc9bf500993b63069923be";
  B "ecfc8e86fdd83811f9cc9bf500993b63069923beecfc8e86fdd83811f9cc9bf500993b63069923beecfc8e86fdd83811f9cc9bf500993b63069923beecfc8e86fdd83811f9cc9bf500993b63069923beecfc8e86fdd83811f9cc9bf500993b63069923beecfc8e86fdd83811f9cc9bf500993b63069923be";
  B "ecfc8e86fdd83811f9cc9bf500993b63069923beecfc8e86fdd83811f9cc9bf500993b63069923beecfc8e86fdd83811f9cc9bf500993b63069923beecfc8e86fdd83811f9cc9bf500993b63069923beecfc8e86fdd83811f9cc9bf500993b63069923beecfc8e86fdd83811f9cc9bf500993b63069923be";
  B "ecfc8e86fdd83811f9cc9bf500993b63069923beecfc8e86fdd83811f9cc9bf500993b63069923beecfc8e86fdd83811f9cc9bf500993b63069923beecfc8e86fdd83811f9cc9bf500993b63069923beecfc8e86fdd83811f9cc9bf500993b63069923beecfc8e86fdd83811f9cc9bf500993b63069923be";
  B "ecfc8e86fdd83811f9cc9bf500993b63069923beecfc8e86fdd83811f9cc9bf500993b63069923beecfc8e86fdd83811f9cc9bf500993b63069923beecfc8e86fdd83811f9cc9bf500993b63069923beecfc8e86fdd83811f9cc9bf500993b63069923beecfc8e86fdd83811f9cc9bf500993b63069923be";
  B "ecfc8e86fdd83811f9cc9bf500993b63069923beecfc8e86fdd83811f9cc9bf500993b63069923beecfc8e86fdd83811f9cc9bf500993b63069923beecfc8e86fdd83811f9cc9bf500993b63069923beecfc8e86fdd83811f9cc9bf500993b63069923beecfc8e86fdd83811f9cc9bf500993b63069923be";
  B "ecfc8e86fdd83811f9cc9bf500993b63069923beecfc8e86fdd83811f9cc9bf500993b63069923beecfc8e86fdd83811f9cc9bf500993b63069923beecfc8e86fdd83811f9cc9bf500993b63069923beecfc8e86fdd83811f9cc9bf500993b63069923beecfc8e86fdd83811f9cc9bf500993b63069923be";
  B "ecfc8e86fdd83811f9cc9bf500993b63069923beecfc8e86fdd83811f9cc9bf500993b63069923beecfc8e86fdd83811f9cc9bf500993b63069923beecfc8e86fdd83811f9cc9bf500993b63069923beecfc8e86fdd83811f9cc9bf500993b63069923beecfc8e86fdd83811f9cc9bf500993b63069923be";
  B "ecfc8e86fdd83811f9cc9bf500993b63069923beecfc8e86fdd83811f9cc9bf500993b63069923beecfc8e86fdd83811f9cc9bf500993b63069923beecfc8e86fdd83811f9cc9bf500993b63069923beecfc8e86fdd83811f9cc9bf500993b63069923beecfc8e86fdd83811f9cc9bf500993b63069923be";
  B "ecfc8e86fdd83811f9cc9bf500993b63069923beecfc8e86fdd83811f9cc9bf500993b63069923beecfc8e86fdd83811f9cc9bf500993b63069923beecfc8e86fdd83811f9cc9bf500993b63069923beecfc8e86fdd83811f9cc9bf500993b63069923beecfc8e86fdd83811f9cc9bf500993b63069923be";
  B "ecfc8e86fdd83811f9cc9bf500993b63069923beecfc8e86fdd83811f9cc9bf500993b63069923beecfc8e86fdd83811f9cc9bf500993b63069923beecfc8e86fdd83811f9cc9bf500993b63069923beecfc8e86fdd83811f9cc9bf500993b63069923beecfc8e86fdd83811f9cc9bf500993b63069923be";
  B "ecfc8e86fdd83811f9cc9bf500993b63069923beecfc8e86fdd83811f9cc9bf500993b63069923beecfc8e86fdd83811f9cc9bf500993b63069923beecfc8e86fdd83811f9cc9bf500993b63069923beecfc8e86fdd83811f9cc9bf500993b63069923beecfc8e86fdd83811f9cc9bf500993b63069923be";
  B "ecfc8e86fdd83811f9cc9bf500993b63069923beecfc8e86fdd83811f9cc9bf500993b63069923beecfc8e86fdd83811f9cc9bf500993b63069923beecfc8e86fdd83811f9cc9bf500993b63069923beecfc8e86fdd83811f9cc9bf500993b63069923beecfc8e86fdd83811f9cc9bf500993b63069923be";
  B "ecfc8e86fdd83811f9cc9bf500993b63069923beecfc8e86fdd83811f9cc9bf500993b63069923beecfc8e86fdd83811f9cc9bf500993b63069923beecfc8e86fdd83811f9cc9bf500993b63069923beecfc8e86fdd83811f9cc9bf500993b63069923beecfc8e86fdd83811f9cc9bf500993b63069923be";
  B "ecfc8e86fdd83811f9cc9bf500993b63069923beecfc8e86fdd83811f9cc9bf500993b63069923beecfc8e86fdd83811f9cc9bf500993b63069923beecfc8e86fdd83811f9cc9bf500993b63069923beecfc8e86fdd83811f9cc9bf500993b63069923beecfc8e86fdd83811f9cc9bf500993b63069923be";
  B "ecfc8e86fdd83811f9cc9bf500993b63069923beecfc8e86fdd83811f9cc9bf500993b63069923beecfc8e86fdd83811f9cc9bf500993b63069923beecfc8e86fdd83811f9cc9bf500993b63069923beecfc8e86fdd83811f9cc9bf500993b63069923beecfc8e86fdd83811f9cc9bf500993b63069923be";
  B "ecfc8e86fdd83811f9cc9bf500993b63069923beecfc8e86fdd83811f9cc9bf500993b63069923beecfc8e86fdd83811f9cc9bf500993b63069923beecfc8e86fdd83811f9cc9bf500993b63069923beecfc8e86fdd83811f9cc9bf500993b63069923beecfc8e86fdd83811f9cc9bf500993b63069923be";
  B "ecfc8e86fdd83811f9cc9bf500993b63069923beecfc8e86fdd83811f9cc9bf500993b63069923beecfc8e86fdd83811f9cc9bf500993b63069923beecfc8e86fdd83811f9cc9bf500993b63069923beecfc8e86fdd83811f9cc9bf500993b63069923beecfc8e86fdd83811f9cc9bf500993b63069923be";
  B "ecfc8e86fdd83811f9cc9bf500993b63069923beecfc8e86fdd83811f9cc9bf500993b63069923beecfc8e86fdd83811f9cc9bf500993b63069923beecfc8e86fdd83811f9cc9bf500993b63069923beecfc8e86fdd83811f9cc9bf500993b63069923beecfc8e86fdd83811f9cc9bf500993b63069923be";
  B "ecfc8e86fdd83811f9cc9bf500993b63069923beecfc8e86fdd83811f9cc9bf500993b63069923beecfc8e86fdd83811f9cc9bf500993b63069923beecfc8e86fdd83811f9cc9bf500993b63069923beecfc8e86fdd83811f9cc9bf500993b63069923beecfc8e86fdd83811f9cc9bf500993b63069923be";
  B "ecfc8e86fdd83811f9cc9bf500993b63069923beecfc8e86fdd83811f9cc9bf500993b63069923beecfc8e86fdd83811f9cc9bf500993b63069923beecfc8e86fdd83811f9cc9bf500993b63069923beecfc8e86fdd83811f9cc9bf500993b63069923beecfc8e86fdd83811f9cc9bf500993b63069923be";
  B "ecfc8e86fdd83811f9cc9bf500993b63069923beecfc8e86fdd83811f9cc9bf500993b63069923beecfc8e86fdd83811f9cc9bf500993b63069923beecfc8e86fdd83811f9cc9bf500993b63069923beecfc8e86fdd83811f9cc9bf500993b63069923beecfc8e86fdd83811f9cc9bf500993b63069923be";
  B "ecfc8e86fdd83811f9cc9bf500993b63069923beecfc8e86fdd83811f9cc9bf500993b63069923beecfc8e86fdd83811f9cc9bf500993b63069923beecfc8e86fdd83811f9cc9bf500993b63069923beecfc8e86fdd83811f9cc9bf500993b63069923beecfc8e86fdd83811f9cc9bf500993b63069923be";
  B "ecfc8e86fdd83811f9cc9bf500993b63069923beecfc8e86fdd83811f9cc9bf500993b63069923beecfc8e86fdd83811f9cc9bf500993b63069923beecfc8e86fdd83811f9cc9bf500993b63069923beecfc8e86fdd83811f9cc9bf500993b63069923beecfc8e86fdd83811f9cc9bf500993b63069923be";
  B "ecfc8e86fdd83811f9cc9bf500993b63069923beecfc8e86fdd83811f9cc9bf500993b63069923beecfc8e86fdd83811f9cc9bf500993b63069923beecfc8e86fdd83811f9cc9bf500993b63069923beecfc8e86fdd83811f9cc9bf500993b63069923beecfc8e86fdd83811f9cc9bf500993b63069923be";
  B "ecfc8e86fdd83811f9cc9bf500993b63069923beecfc8e86fdd83811f9cc9bf500993b63069923beecfc8e86fdd83811f9cc9bf500993b63069923beecfc8e86fdd83811f9cc9bf500993b63069923beecfc8e86fdd83811f9cc9bf500993b63069923beecfc8e86fdd83811f9cc9bf500993b63069923be";
  B "ecfc8e86fdd83811f9cc9bf500993b63069923beecfc8e86fdd83811f9cc9bf500993b63069923beecfc8e86fdd83811f9cc9bf500993b63069923beecfc8e86fdd83811f9cc9bf500993b63069923beecfc8e86fdd83811f9cc9bf500993b63069923beecfc8e86fdd83811f9cc9bf500993b63069923be";
  B "ecfc8e86fdd83811f9cc9bf500993b63069923beecfc8e86fdd83811f9cc9bf500993b63069923beecfc8e86fdd83811f9cc9bf500993b63069923beecfc8e86fdd83811f9cc9bf500993b63069923beecfc8e86fdd83811f9cc9bf500993b63069923beecfc8e86fdd83811f9cc9bf500993b63069923be";
  B "ecfc8e86fdd83811f9cc9bf500993b63069923beecfc8e86fdd83811f9cc9bf500993b63069923beecfc8e86fdd83811f9cc9bf500993b63069923beecfc8e86fdd83811f9cc9bf500993b63069923beecfc8e86fdd83811f9cc9bf500993b63069923beecfc8e86fdd83811f9cc9bf500993b63069923be";
  B "ecfc8e86fdd83811f9cc9bf500993b63069923beecfc8e86fdd83811f9cc9bf500993b63069923beecfc8e86fdd83811f9cc9bf500993b63069923beecfc8e86fdd83811f9cc9bf500993b63069923beecfc8e86fdd83811f9cc9bf500993b63069923beecfc8e86fdd83811f9cc9bf500993b63069923be";
  B "ecfc8e86fdd83811f9cc9bf500993b63069923beecfc8e86fdd83811f9cc9bf500993b63069923beecfc8e86fdd83811f9cc9bf500993b63069923beecfc8e86fdd83811f9cc9bf500993b63069923beecfc8e86fdd83811f9cc9bf500993b63069923beecfc8e86fdd83811f9cc9bf500993b63069923be";
  B "ecfc8e86fdd83811f9cc9bf500993b63069923beecfc8e86fdd83811f9cc9bf500993b63069923beecfc8e86fdd83811f9cc9bf500993b63069923beecfc8e86fdd83811f9cc9bf500993b63069923beecfc8e86fdd83811f9cc9bf500993b63069923beecfc8e86fdd83811f9cc9bf500993b63069923be";
  B "ecfc8e86fdd83811f9cc9bf500993b63069923beecfc8e86fdd83811f9cc9bf500993b63069923beecfc8e86fdd83811f9cc9bf500993b63069923beecfc8e86fdd83811f9cc9bf500993b63069923beecfc8e86fdd83811f9cc9bf500993b63069923beecfc8e86fdd83811f9cc9bf500993b63069923be";
  B "ecfc8e86fdd83811f9cc9bf500993b63069923beecfc8e86fdd83811f9cc9bf500993b63069923beecfc8e86fdd83811f9cc9bf500993b63069923beecfc8e86fdd83811f9cc9bf500993b63069923beecfc8e86fdd83811f9cc9bf500993b63069923beecfc8e86fdd83811f9cc9bf500993b63069923be";
  B "ecfc8e86fdd83811f9cc9bf500993b63069923beecfc8e86fdd83811f9cc9bf500993b63069923beecfc8e86fdd83811f9cc9bf500993b63069923beecfc8e86fdd83811f9cc9bf500993b63069923beecfc8e86fdd83811f9cc9bf500993b63069923beecfc8e86fdd83811f9cc9bf500993b63069923be";
  B "ecfc8e86fdd83811f9cc9bf500993b63069923beecfc8e86fdd83811f9cc9bf500993b63069923beecfc8e86fdd83811f9cc9bf500993b63069923beecfc8e86fdd83811f9cc9bf500993b63069923beecfc8e86fdd83811f9cc9bf500993b63069923beecfc8e86fdd83811f9cc9bf500993b63069923be";
  B "ecfc8e86fdd83811f9cc9bf500993b63069923beecfc8e86fdd83811f9cc9bf500993b63069923beecfc8e86fdd83811f9cc9bf500993b63069923beecfc8e86fdd83811f9cc9bf500993b63069923beecfc8e86fdd83811f9cc9bf500993b63069923beecfc8e86fdd83811f9cc9bf500993b63069923be";
  B "ecfc8e86fdd83811f9cc9bf500993b63069923beecfc8e86fdd83811f9cc9bf500993b63069923beecfc8e86fdd83811f9cc9bf500993b63069923beecfc8e86fdd83811f9cc9bf500993b63069923beecfc8e86fdd83811f9cc9bf500993b63069923beecfc8e86fdd83811f9cc9bf500993b63069923be";
  B "ecfc8e86fdd83811f9cc9bf500993b63069923beecfc8e86fdd83811f9cc9bf500993b63069923beecfc8e86fdd83811f9cc9bf500993b63069923beecfc8e86fdd83811f9cc9bf500993b63069923beecfc8e86fdd83811f9cc9bf500993b63069923beecfc8e86fdd83811f9cc9bf500993b63069923be";
  B "ecfc8e86fdd83811f9cc9bf500993b63069923beecfc8e86fdd83811f9cc9bf500993b63069923beecfc8e86fdd83811f9cc9bf500993b63069923beecfc8e86fdd83811f9cc9bf500993b63069923beecfc8e86fdd83811f9cc9bf500993b63069923beecfc8e86fdd83811f9cc9bf500993b63069923be";
  B "ecfc8e86fdd83811f9cc9bf500993b63069923beecfc8e86fdd83811f9cc9bf500993b63069923beecfc8e86fdd83811f9cc9bf500993b63069923beecfc8e86fdd83811f9cc9bf500993b63069923beecfc8e86fdd83811f9cc9bf500993b63069923beecfc8e86fdd83811f9cc9bf500993b63069923be";
  B "ecfc8e86fdd83811f9cc9bf500993b63069923beecfc8e86fdd83811f9cc9bf500993b63069923beecfc8e86fdd83811f9cc9bf500993b63069923beecfc8e86fdd83811f9cc9bf500993b63069923beecfc8e86fdd83811f9cc9bf500993b63069923beecfc8e86fdd83811f9cc9bf500993b63069923be";
  B "ecfc8e86fdd83811f9cc9bf500993b63069923beecfc8e86fdd83811f9cc9bf500993b63069923beecfc8e86fdd83811f9cc9bf500993b63069923beecfc8e86fdd83811f9cc9bf500993b63069923beecfc8e86fdd83811f9cc9bf500993b63069923beecfc8e86fdd83811f9cc9bf500993b63069923be";
  B "ecfc8e86fdd83811f9cc9bf500993b63069923beecfc8e86fdd83811f9cc9bf500993b63069923beecfc8e86fdd83811f9cc9bf500993b63069923beecfc8e86fdd83811f9cc9bf500993b63069923beecfc8e86fdd83811f9cc9bf500993b63069923beecfc8e86fdd83811f9cc9bf500993b63069923be";
  B "ecfc8e86fdd83811f9cc9bf500993b63069923beecfc8e86fdd83811f9cc9bf500993b63069923beecfc8e86fdd83811f9cc9bf500993b63069923beecfc8e86fdd83811f9cc9bf500993b63069923beecfc8e86fdd83811f9cc9bf500993b63069923beecfc8e86fdd83811f9cc9bf500993b63069923be";
  B "ecfc8e86fdd83811f9cc9bf500993b63069923beecfc8e86fdd83811f9cc9bf500993b63069923beecfc8e86fdd83811f9cc9bf500993b63069923beecfc8e86fdd83811f9cc9bf500993b63069923beecfc8e86fdd83811f9cc9bf500993b63069923beecfc8e86fdd83811f9cc9bf500993b63069923be";
  B "ecfc8e86fdd83811f9cc9bf500993b63069923beecfc8e86fdd83811f9cc9bf500993b63069923beecfc8e86fdd83811f9cc9bf500993b63069923beecfc8e86fdd83811f9cc9bf500993b63069923beecfc8e86fdd83811f9cc9bf500993b63069923beecfc8e86fdd83811f9cc9bf500993b63069923be";
  B "ecfc8e86fdd83811f9cc9bf500993b63069923beecfc8e86fdd83811f9cc9bf500993b63069923beecfc8e86fdd83811f9cc9bf500993b63069923beecfc8e86fdd83811f9cc9bf500993b63069923beecfc8e86fdd83811f9cc9bf500993b63069923beecfc8e86fdd83811f9cc9bf500993b63069923be";
  B "ecfc8e86fdd83811f9cc9bf500993b63069923beecfc8e86fdd83811f9cc9bf500993b63069923beecfc8e86fdd83811f9cc9bf500993b63069923beecfc8e86fdd83811f9cc9bf500993b63069923beecfc8e86fdd83811f9cc9bf500993b63069923beecfc8e86fdd83811f9cc9bf500993b63069923be";
  B "ecfc8e86fdd83811f9cc9bf500993b63069923beecfc8e86fdd83811f9cc9bf500993b63069923beecfc8e86fdd83811f9cc9bf500993b63069923beecfc8e86fdd83811f9cc9bf500993b63069923beecfc8e86fdd83811f9cc9bf500993b63069923beecfc8e86fdd83811f9cc9bf500993b63069923be";
  B "ecfc8e86fdd83811f9cc9bf500993b63069923beecfc8e86fdd83811f9cc9bf500993b63069923beecfc8e86fdd83811f9cc9bf500993b63069923beecfc8e86fdd83811f9cc9bf500993b63069923beecfc8e86fdd83811f9cc9bf500993b63069923beecfc8e86fdd83811f9cc9bf500993b63069923be";
  B "ecfc8e86fdd83811f9cc9bf500993b63069923beecfc8e86fdd83811f9cc9bf500993b63069923beecfc8e86fdd83811f9cc9bf500993b63069923beecfc8e86fdd83811f9cc9bf500993b63069923beecfc8e86fdd83811f9cc9bf500993b63069923beecfc8e86fdd83811f9cc9bf500993b63069923be";
  B "ecfc8e86fdd83811f9cc9bf500993b63069923beecfc8e86fdd83811f9cc9bf500993b63069923beecfc8e86fdd83811f9cc9bf500993b63069923beecfc8e86fdd83811f9cc9bf500993b63069923beecfc8e86fdd83811f9cc9bf500993b63069923beecfc8e86fdd83811f9cc9bf500993b63069923be";
  B "ecfc8e86fdd83811f9cc9bf500993b63069923beecfc8e86fdd83811f9cc9bf500993b63069923beecfc8e86fdd83811f9cc9bf500993b63069923beecfc8e86fdd83811f9cc9bf500993b63069923beecfc8e86fdd83811f9cc9bf500993b63069923beecfc8e86fdd83811f9cc9bf500993b63069923be";
  B "ecfc8e86fdd83811f9cc9bf500993b63069923beecfc8e86fdd83811f9cc9bf500993b63069923beecfc8e86fdd83811f9cc9bf500993b63069923beecfc8e86fdd83811f9cc9bf500993b63069923beecfc8e86fdd83811f9cc9bf500993b63069923beecfc8e86fdd83811f9cc9bf500993b63069923be";
  B "ecfc8e86fdd83811f9cc9bf500993b63069923beecfc8e86fdd83811f9cc9bf500993b63069923beecfc8e86fdd83811f9cc9bf500993b63069923beecfc8e86fdd83811f9cc9bf500993b63069923beecfc8e86fdd83811f9cc9bf500993b63069923beecfc8e86fdd83811f9cc9bf500993b63069923be";
  B "ecfc8e86fdd83811f9cc9bf500993b63069923beecfc8e86fdd83811f9cc9bf500993b63069923beecfc8e86fdd83811f9cc9bf500993b63069923beecfc8e86fdd83811f9cc9bf500993b63069923beecfc8e86fdd83811f9cc9bf500993b63069923beecfc8e86fdd83811f9cc9bf500993b63069923be";
  B "ecfc8e86fdd83811f9cc9bf500993b63069923beecfc8e86fdd83811f9cc9bf500993b63069923beecfc8e86fdd83811f9cc9bf500993b63069923beecfc8e86fdd83811f9cc9bf500993b63069923beecfc8e86fdd83811f9cc9bf500993b63069923beecfc8e86fdd83811f9cc9bf500993b63069923be";
  B "ecfc8e86fdd83811f9cc9bf500993b63069923beecfc8e86fdd83811f9cc9bf500993b63069923beecfc8e86fdd83811f9cc9bf500993b63069923beecfc8e86fdd83811f9cc9bf500993b63069923beecfc8e86fdd83811f9cc9bf500993b63069923beecfc8e86fdd83811f9cc9bf500993b63069923be";
  B "ecfc8e86fdd83811f9cc9bf500993b63069923beecfc8e86fdd83811f9cc9bf500993b63069923beecfc8e86fdd83811f9cc9bf500993b63069923beecfc8e86fdd83811f9cc9bf500993b63069923beecfc8e86fdd83811f9cc9bf500993b63069923beecfc8e86fdd83811f9cc9bf500993b63069923be";
  B "ecfc8e86fdd83811f9cc9bf500993b63069923beecfc8e86fdd83811f9cc9bf500993b63069923beecfc8e86fdd83811f9cc9bf500993b63069923beecfc8e86fdd83811f9cc9bf500993b63069923beecfc8e86fdd83811f9cc9bf500993b63069923beecfc8e86fdd83811f9cc9bf500993b63069923be";
  B "ecfc8e86fdd83811f9cc9bf500993b63069923beecfc8e86fdd83811f9cc9bf500993b63069923beecfc8e86fdd83811f9cc9bf500993b63069923beecfc8e86fdd83811f9cc9bf500993b63069923beecfc8e86fdd83811f9cc9bf500993b63069923beecfc8e86fdd83811f9cc9bf500993b63069923be";
  B "ecfc8e86fdd83811f9cc9bf500993b63069923beecfc8e86fdd83811f9cc9bf500993b63069923beecfc8e86fdd83811f9cc9bf500993b63069923beecfc8e86fdd83811f9cc9bf500993b63069923beecfc8e86fdd83811f9cc9bf500993b63069923beecfc8e86fdd83811f9cc9bf500993b63069923be";
  B "ecfc8e86fdd83811f9cc9bf500993b63069923beecfc8e86fdd83811f9cc9bf500993b63069923beecfc8e86fdd83811f9cc9bf500993b63069923beecfc8e86fdd83811f9cc9bf500993b63069923beecfc8e86fdd83811f9cc9bf500993b63069923beecfc8e86fdd83811f9cc9bf500993b63069923be";
  B "ecfc8e86fdd83811f9cc9bf500993b63069923beecfc8e86fdd83811f9cc9bf500993b63069923beecfc8e86fdd83811f9cc9bf500993b63069923beecfc8e86fdd83811f9cc9bf500993b63069923beecfc8e86fdd83811f9cc9bf500993b63069923beecfc8e86fdd83811f9cc9bf500993b63069923be";
  B "ecfc8e86fdd83811f9cc9bf500993b63069923beecfc8e86fdd83811f9cc9bf500993b63069923beecfc8e86fdd83811f9cc9bf500993b63069923beecfc8e86fdd83811f9cc9bf500993b63069923beecfc8e86fdd83811f9cc9bf500993b63069923beecfc8e86fdd83811f9cc9bf500993b63069923be";
  B "ecfc8e86fdd83811f9cc9bf500993b63069923beecfc8e86fdd83811f9cc9bf500993b63069923beecfc8e86fdd83811f9cc9bf500993b63069923beecfc8e86fdd83811f9cc9bf500993b63069923beecfc8e86fdd83811f9cc9bf500993b63069923beecfc8e86fdd83811f9cc9bf500993b63069923be";
  B "ecfc8e86fdd83811f9cc9bf500993b63069923beecfc8e86fdd83811f9cc9bf500993b63069923beecfc8e86fdd83811f9cc9bf500993b63069923beecfc8e86fdd83811f9cc9bf500993b63069923beecfc8e86fdd83811f9cc9bf500993b63069923beecfc8e86fdd83811f9cc9bf500993b63069923be";
  B "ecfc8e86fdd83811f9cc9bf500993b63069923beecfc8e86fdd83811f9cc9bf500993b63069923beecfc8e86fdd83811f9cc9bf500993b63069923beecfc8e86fdd83811f9cc9bf500993b63069923beecfc8e86fdd83811f9cc9bf500993b63069923beecfc8e86fdd83811f9cc9bf500993b63069923be";
  B "ecfc8e86fdd83811f9cc9bf500993b63069923beecfc8e86fdd83811f9cc9bf500993b63069923beecfc8e86fdd83811f9cc9bf500993b63069923beecfc8e86fdd83811f9cc9bf500993b63069923beecfc8e86fdd83811f9cc9bf500993b63069923beecfc8e86fdd83811f9cc9bf500993b63069923be";
  B "ecfc8e86fdd83811f9cc9bf500993b63069923beecfc8e86fdd83811f9cc9bf500993b63069923beecfc8e86fdd83811f9cc9bf500993b63069923beecfc8e86fdd83811f9cc9bf500993b63069923beecfc8e86fdd83811f9cc9bf500993b63069923beecfc8e86fdd83811f9cc9bf500993b63069923be";
  B "ecfc8e86fdd83811f9cc9bf500993b63069923beecfc8e86fdd83811f9cc9bf500993b63069923beecfc8e86fdd83811f9cc9bf500993b63069923beecfc8e86fdd83811f9cc9bf500993b63069923beecfc8e86fdd83811f9cc9bf500993b63069923beecfc8e86fdd83811f9cc9bf500993b63069923be";
  B "ecfc8e86fdd83811f9cc9bf500993b63069923beecfc8e86fdd83811f9cc9bf500993b63069923beecfc8e86fdd83811f9cc9bf500993b63069923beecfc8e86fdd83811f9cc9bf500993b63069923beecfc8e86fdd83811f9cc9bf500993b63069923beecfc8e86fdd83811f9cc9bf500993b63069923be";
  B "ecfc8e86fdd83811f9cc9bf500993b63069923beecfc8e86fdd83811f9cc9bf500993b63069923beecfc8e86fdd83811f9cc9bf500993b63069923beecfc8e86fdd83811f9cc9bf500993b63069923beecfc8e86fdd83811f9cc9bf500993b63069923beecfc8e86fdd83811f9cc9bf500993b63069923be";
  B "ecfc8e86fdd83811f9cc9bf500993b63069923beecfc8e86fdd83811f9cc9bf500993b63069923beecfc8e86fdd83811f9cc9bf500993b63069923beecfc8e86fdd83811f9cc9bf500993b63069923beecfc8e86fdd83811f9cc9bf500993b63069923beecfc8e86fdd83811f9cc9bf500993b63069923be";
  B "ecfc8e86fdd83811f9cc9bf500993b63069923beecfc8e86fdd83811f9cc9bf500993b63069923beecfc8e86fdd83811f9cc9bf500993b63069923beecfc8e86fdd83811f9cc9bf500993b63069923beecfc8e86fdd83811f9cc9bf500993b63069923beecfc8e86fdd83811f9cc9bf500993b63069923be";
  B "ecfc8e86fdd83811f9cc9bf500993b63069923beecfc8e86fdd83811f9cc9bf500993b63069923beecfc8e86fdd83811f9cc9bf500993b63069923beecfc8e86fdd83811f9cc9bf500993b63069923beecfc8e86fdd83811f9cc9bf500993b63069923beecfc8e86fdd83811f9cc9bf500993b63069923be";
  B "ecfc8e86fdd83811f9cc9bf500993b63069923beecfc8e86fdd83811f9cc9bf500993b63069923beecfc8e86fdd83811f9cc9bf500993b63069923beecfc8e86fdd83811f9cc9bf500993b63069923beecfc8e86fdd83811f9cc9bf500993b63069923beecfc8e86fdd83811f9cc9bf500993b63069923be";
  B "ecfc8e86fdd83811f9cc9bf500993b63069923beecfc8e86fdd83811f9cc9bf500993b63069923beecfc8e86fdd83811f9cc9bf500993b63069923beecfc8e86fdd83811f9cc9bf500993b63069923beecfc8e86fdd83811f9cc9bf500993b63069923beecfc8e86fdd83811f9cc9bf500993b63069923be";
  B "ecfc8e86fdd83811f9cc9bf500993b63069923beecfc8e86fdd83811f9cc9bf500993b63069923beecfc8e86fdd83811f9cc9bf500993b63069923beecfc8e86fdd83811f9cc9bf500993b63069923beecfc8e86fdd83811f9cc9bf500993b63069923beecfc8e86fdd83811f9cc9bf500993b63069923be";
  B "ecfc8e86fdd83811f9cc9bf500993b63069923beecfc8e86fdd83811f9cc9bf500993b63069923beecfc8e86fdd83811f9cc9bf500993b63069923beecfc8e86fdd83811f9cc9bf500993b63069923beecfc8e86fdd83811f9cc9bf500993b63069923beecfc8e86fdd83811f9cc9bf500993b63069923be";
  B "ecfc8e86fdd83811f9cc9bf500993b63069923beecfc8e86fdd83811f9cc9bf500993b63069923beecfc8e86fdd83811f9cc9bf500993b63069923beecfc8e86fdd83811f9cc9bf500993b63069923beecfc8e86fdd83811f9cc9bf500993b63069923beecfc8e86fdd83811f9cc9bf500993b63069923be";
  B "ecfc8e86fdd83811f9cc9bf500993b63069923beecfc8e86fdd83811f9cc9bf500993b63069923beecfc8e86fdd83811f9cc9bf500993b63069923beecfc8e86fdd83811f9cc9bf500993b63069923beecfc8e86fdd83811f9cc9bf500993b63069923beecfc8e86fdd83811f9cc9bf500993b63069923be";
  B "ecfc8e86fdd83811f9cc9bf500993b63069923beecfc8e86fdd83811f9cc9bf500993b63069923beecfc8e86fdd83811f9cc9bf500993b63069923beecfc8e86fdd83811f9cc9bf500993b63069923beecfc8e86fdd83811f9cc9bf500993b63069923beecfc8e86fdd83811f9cc9bf500993b63069923be";
  B "ecfc8e86fdd83811f9cc9bf500993b63069923beecfc8e86fdd83811f9cc9bf500993b63069923beecfc8e86fdd83811f9cc9bf500993b63069923beecfc8e86fdd83811f9cc9bf500993b63069923beecfc8e86fdd83811f9cc9bf500993b63069923beecfc8e86fdd83811f9cc9bf500993b63069923be";
  B "ecfc8e86fdd83811f9cc9bf500993b63069923beecfc8e86fdd83811f9cc9bf500993b63069923beecfc8e86fdd83811f9cc9bf500993b63069923beecfc8e86fdd83811f9cc9bf500993b63069923beecfc8e86fdd83811f9cc9bf500993b63069923beecfc8e86fdd83811f9cc9bf500993b63069923be";
  B "ecfc8e86fdd83811f9cc9bf500993b63069923beecfc8e86fdd83811f9cc9bf500993b63069923beecfc8e86fdd83811f9cc9bf500993b63069923beecfc8e86fdd83811f9cc9bf500993b63069923beecfc8e86fdd83811f9cc9bf500993b63069923beecfc8e86fdd83811f9cc9bf500993b63069923be";
  B "ecfc8e86fdd83811f9cc9bf500993b63069923beecfc8e86fdd83811f9cc9bf500993b63069923beecfc8e86fdd83811f9cc9bf500993b63069923beecfc8e86fdd83811f9cc9bf500993b63069923beecfc8e86fdd83811f9cc9bf500993b63069923beecfc8e86fdd83811f9cc9bf500993b63069923be";
  B "ecfc8e86fdd83811f9cc9bf500993b63069923beecfc8e86fdd83811f9cc9bf500993b63069923beecfc8e86fdd83811f9cc9bf500993b63069923beecfc8e86fdd83811f9cc9bf500993b63069923beecfc8e86fdd83811f9cc9bf500993b63069923beecfc8e86fdd83811f9cc9bf500993b63069923be";
  B "ecfc8e86fdd83811f9cc9bf500993b63069923beecfc8e86fdd83811f9cc9bf500993b63069923beecfc8e86fdd83811f9cc9bf500993b63069923beecfc8e86fdd83811f9cc9bf500993b63069923beecfc8e86fdd83811f9cc9bf500993b63069923beecfc8e86fdd83811f9cc9bf500993b63069923be";
  B "ecfc8e86fdd83811f9cc9bf500993b63069923beecfc8e86fdd83811f9cc9bf500993b63069923beecfc8e86fdd83811f9cc9bf500993b63069923beecfc8e86fdd83811f9cc9bf500993b63069923beecfc8e86fdd83811f9cc9bf500993b63069923beecfc8e86fdd83811f9cc9bf500993b63069923be";
  B "ecfc8e86fdd83811f9cc9bf500993b63069923beecfc8e86fdd83811f9cc9bf500993b63069923beecfc8e86fdd83811f9cc9bf500993b63069923beecfc8e86fdd83811f9cc9bf500993b63069923beecfc8e86fdd83811f9cc9bf500993b63069923beecfc8e86fdd83811f9cc9bf500993b63069923be";
  B "ecfc8e86fdd83811f9cc9bf500993b63069923beecfc8e86fdd83811f9cc9bf500993b63069923beecfc8e86fdd83811f9cc9bf500993b63069923beecfc8e86fdd83811f9cc9bf500993b63069923beecfc8e86fdd83811f9cc9bf500993b63069923beecfc8e86fdd83811f9cc9bf500993b63069923be";
  B "ecfc8e86fdd83811f9cc9bf500993b63069923beecfc8e86fdd83811f9cc9bf500993b63069923beecfc8e86fdd83811f9cc9bf500993b63069923beecfc8e86fdd83811f9cc9bf500993b63069923beecfc8e86fdd83811f9cc9bf500993b63069923beecfc8e86fdd83811f9cc9bf500993b63069923be";
  B "ecfc8e86fdd83811f9cc9bf500993b63069923beecfc8e86fdd83811f9cc9bf500993b63069923beecfc8e86fdd83811f9cc9bf500993b63069923beecfc8e86fdd83811f9cc9bf500993b63069923beecfc8e86fdd83811f9cc9bf500993b63069923beecfc8e86fdd83811f9cc9bf500993b63069923be";
  B "ecfc8e86fdd83811f9cc9bf500993b63069923beecfc8e86fdd83811f9cc9bf500993b63069923beecfc8e86fdd83811f9cc9bf500993b63069923beecfc8e86fdd83811f9cc9bf500993b63069923beecfc8e86fdd83811f9cc9bf500993b63069923beecfc8e86fdd83811f9cc9bf500993b63069923be";
  B "ecfc8e86fdd83811f9cc9bf500993b63069923beecfc8e86fdd83811f9cc9bf500993b63069923beecfc8e86fdd83811f9cc9bf500993b63069923beecfc8e86fdd83811f9cc9bf500993b63069923beecfc8e86fdd83811f9cc9bf500993b63069923beecfc8e86fdd83811f9cc9bf500993b63069923be";
  B "ecfc8e86fdd83811f9cc9bf500993b63069923beecfc8e86fdd83811f9cc9bf500993b63069923beecfc8e86fdd83811f9cc9bf500993b63069923beecfc8e86fdd83811f9cc9bf500993b63069923beecfc8e86fdd83811f9cc9bf500993b63069923beecfc8e86fdd83811f9cc9bf500993b63069923be";
  B "ecfc8e86fdd83811f9cc9bf500993b63069923beecfc8e86fdd83811f9cc9bf500993b63069923beecfc8e86fdd83811f9cc9bf500993b63069923beecfc8e86fdd83811f9cc9bf500993b63069923beecfc8e86fdd83811f9cc9bf500993b63069923beecfc8e86fdd83811f9cc9bf500993b63069923be";
  B "ecfc8e86fdd83811f9cc9bf500993b63069923beecfc8e86fdd83811f9cc9bf500993b63069923beecfc8e86fdd83811f9cc9bf500993b63069923beecfc8e86fdd83811f9cc9bf500993b63069923beecfc8e86fdd83811f9cc9bf500993b63069923beecfc8e86fdd83811f9cc9bf500993b63069923be";
  B "ecfc8e86fdd83811f9cc9bf500993b63069923beecfc8e86fdd83811f9cc9bf500993b63069923beecfc8e86fdd83811f9cc9bf500993b63069923beecfc8e86fdd83811f9cc9bf500993b63069923beecfc8e86fdd83811f9cc9bf500993b63069923beecfc8e86fdd83811f9cc9bf500993b63069923be";
  B "ecfc8e86fdd83811f9cc9bf500993b63069923beecfc8e86fdd83811f9cc9bf500993b63069923beecfc8e86fdd83811f9cc9bf500993b63069923beecfc8e86fdd83811f9cc9bf500993b63069923beecfc8e86fdd83811f9cc9bf500993b63069923beecfc8e86fdd83811f9cc9bf500993b63069923be";
  B "ecfc8e86fdd83811f9cc9bf500993b63069923beecfc8e86fdd83811f9cc9bf500993b63069923beecfc8e86fdd83811f9cc9bf500993b63069923beecfc8e86fdd83811f9cc9bf500993b63069923beecfc8e86fdd83811f9cc9bf500993b63069923beecfc8e86fdd83811f9cc9bf500993b63069923be";
  B "ecfc8e86fdd83811f9cc9bf500993b63069923beecfc8e86fdd83811f9cc9bf500993b63069923beecfc8e86fdd83811f9cc9bf500993b63069923beecfc8e86fdd83811f9cc9bf500993b63069923beecfc8e86fdd83811f9cc9bf500993b63069923beecfc8e86fdd83811f9cc9bf500993b63069923be";
  B "ecfc8e86fdd83811f9cc9bf500993b63069923beecfc8e86fdd83811f9cc9bf500993b63069923beecfc8e86fdd83811f9cc9bf500993b63069923beecfc8e86fdd83811f9cc9bf500993b63069923beecfc8e86fdd83811f9cc9bf500993b63069923beecfc8e86fdd83811f9cc9bf500993b63069923be";
  B "ecfc8e86fdd83811f9cc9bf500993b63069923beecfc8e86fdd83811f9cc9bf500993b63069923beecfc8e86fdd83811f9cc9bf500993b63069923beecfc8e86fdd83811f9cc9bf500993b63069923beecfc8e86fdd83811f9cc9bf500993b63069923beecfc8e86fdd83811f9cc9bf500993b63069923be";
  B "ecfc8e86fdd83811f9cc9bf500993b63069923beecfc8e86fdd83811f9cc9bf500993b63069923beecfc8e86fdd83811f9cc9bf500993b63069923beecfc8e86fdd83811f9cc9bf500993b63069923beecfc8e86fdd83811f9cc9bf500993b63069923beecfc8e86fdd83811f9cc9bf500993b63069923be";
  B "ecfc8e86fdd83811f9cc9bf500993b63069923beecfc8e86fdd83811f9cc9bf500993b63069923beecfc8e86fdd83811f9cc9bf500993b63069923beecfc8e86fdd83811f9cc9bf500993b63069923beecfc8e86fdd83811f9cc9bf500993b63069923beecfc8e86fdd83811f9cc9bf500993b63069923be";
  B "ecfc8e86fdd83811f9cc9bf500993b63069923beecfc8e86fdd83811f9cc9bf500993b63069923beecfc8e86fdd83811f9cc9bf500993b63069923beecfc8e86fdd83811f9cc9bf500993b63069923beecfc8e86fdd83811f9cc9bf500993b63069923beecfc8e86fdd83811f9cc9bf500993b63069923be";
  B "ecfc8e86fdd83811f9cc9bf500993b63069923beecfc8e86fdd83811f9cc9bf500993b63069923beecfc8e86fdd83811f9cc9bf500993b63069923beecfc8e86fdd83811f9cc9bf500993b63069923beecfc8e86fdd83811f9cc9bf500993b63069923beecfc8e86fdd83811f9cc9bf500993b63069923be";
  B "ecfc8e86fdd83811f9cc9bf500993b63069923beecfc8e86fdd83811f9cc9bf500993b63069923beecfc8e86fdd83811f9cc9bf500993b63069923beecfc8e86fdd83811f9cc9bf500993b63069923beecfc8e86fdd83811f9cc9bf500993b63069923beecfc8e86fdd83811f9cc9bf500993b63069923be";
  B "ecfc8e86fdd83811f9cc9bf500993b63069923beecfc8e86fdd83811f9cc9bf500993b63069923beecfc8e86fdd83811f9cc9bf500993b63069923beecfc8e86fdd83811f9cc9bf500993b63069923beecfc8e86fdd83811f9cc9bf500993b63069923beecfc8e86fdd83811f9cc9bf500993b63069923be";
  B "ecfc8e86fdd83811f9cc9bf500993b63069923beecfc8e86fdd83811f9cc9bf500993b63069923beecfc8e86fdd83811f9cc9bf500993b63069923beecfc8e86fdd83811f9cc9bf500993b63069923beecfc8e86fdd83811f9cc9bf500993b63069923beecfc8e86fdd83811f9cc9bf500993b63069923be";
  B "ecfc8e86fdd83811f9cc9bf500993b63069923beecfc8e86fdd83811f9cc9bf500993b63069923beecfc8e86fdd83811f9cc9bf500993b63069923beecfc8e86fdd83811f9cc9bf500993b63069923beecfc8e86fdd83811f9cc9bf500993b63069923beecfc8e86fdd83811f9cc9bf500993b63069923be";
  B "ecfc8e86fdd83811f9cc9bf500993b63069923beecfc8e86fdd83811f9cc9bf500993b63069923beecfc8e86fdd83811f9cc9bf500993b63069923beecfc8e86fdd83811f9cc9bf500993b63069923beecfc8e86fdd83811f9cc9bf500993b63069923beecfc8e86fdd83811f9cc9bf500993b63069923be";
  B "ecfc8e86fdd83811f9cc9bf500993b63069923beecfc8e86fdd83811f9cc9bf500993b63069923beecfc8e86fdd83811f9cc9bf500993b63069923beecfc8e86fdd83811f9cc9bf500993b63069923beecfc8e86fdd83811f9cc9bf500993b63069923beecfc8e86fdd83811f9cc9bf500993b63069923be";
  B "ecfc8e86fdd83811f9cc9bf500993b63069923beecfc8e86fdd83811f9cc9bf500993b63069923beecfc8e86fdd83811f9cc9bf500993b63069923beecfc8e86fdd83811f9cc9bf500993b63069923beecfc8e86fdd83811f9cc9bf500993b63069923beecfc8e86fdd83811f9cc9bf500993b63069923be";
  B "ecfc8e86fdd83811f9cc9bf500993b63069923beecfc8e86fdd83811f9cc9bf500993b63069923beecfc8e86fdd83811f9cc9bf500993b63069923beecfc8e86fdd83811f9cc9bf500993b63069923beecfc8e86fdd83811f9cc9bf500993b63069923beecfc8e86fdd83811f9cc9bf500993b63069923be";
  B "ecfc8e86fdd83811f9cc9bf500993b63069923beecfc8e86fdd83811f9cc9bf500993b63069923beecfc8e86fdd83811f9cc9bf500993b63069923beecfc8e86fdd83811f9cc9bf500993b63069923beecfc8e86fdd83811f9cc9bf500993b63069923beecfc8e86fdd83811f9cc9bf500993b63069923be";
  B "ecfc8e86fdd83811f9cc9bf500993b63069923beecfc8e86fdd83811f9cc9bf500993b63069923beecfc8e86fdd83811f9cc9bf500993b63069923beecfc8e86fdd83811f9cc9bf500993b63069923beecfc8e86fdd83811f9cc9bf500993b63069923beecfc8e86fdd83811f9cc9bf500993b63069923be";
  B "ecfc8e86fdd83811f9cc9bf500993b63069923beecfc8e86fdd83811f9cc9bf500993b63069923beecfc8e86fdd83811f9cc9bf500993b63069923beecfc8e86fdd83811f9cc9bf500993b63069923beecfc8e86fdd83811f9cc9bf500993b63069923beecfc8e86fdd83811f9cc9bf500993b63069923be";
  B "ecfc8e86fdd83811f9cc9bf500993b63069923beecfc8e86fdd83811f9cc9bf500993b63069923beecfc8e86fdd83811f9cc9bf500993b63069923beecfc8e86fdd83811f9cc9bf500993b63069923beecfc8e86fdd83811f9cc9bf500993b63069923beecfc8e86fdd83811f9cc9bf500993b63069923be";
  B "ecfc8e86fdd83811f9cc9bf500993b63069923beecfc8e86fdd83811f9cc9bf500993b63069923beecfc8e86fdd83811f9cc9bf500993b63069923beecfc8e86fdd83811f9cc9bf500993b63069923beecfc8e86fdd83811f9cc9bf500993b63069923beecfc8e86fdd83811f9cc9bf500993b63069923be";
  B "ecfc8e86fdd83811f9cc9bf500993b63069923beecfc8e86fdd83811f9cc9bf500993b63069923beecfc8e86fdd83811f9cc9bf500993b63069923beecfc8e86fdd83811f9cc9bf500993b63069923beecfc8e86fdd83811f9cc9bf500993b63069923beecfc8e86fdd83811f9cc9bf500993b63069923be";
  B "ecfc8e86fdd83811f9cc9bf500993b63069923beecfc8e86fdd83811f9cc9bf500993b63069923beecfc8e86fdd83811f9cc9bf500993b63069923beecfc8e86fdd83811f9cc9bf500993b63069923beecfc8e86fdd83811f9cc9bf500993b63069923beecfc8e86fdd83811f9cc9bf500993b63069923be";
  B "ecfc8e86fdd83811f9cc9bf500993b63069923beecfc8e86fdd83811f9cc9bf500993b63069923beecfc8e86fdd83811f9cc9bf500993b63069923beecfc8e86fdd83811f9cc9bf500993b63069923beecfc8e86fdd83811f9cc9bf500993b63069923beecfc8e86fdd83811f9cc9bf500993b63069923be";
  B "ecfc8e86fdd83811f9cc9bf500993b63069923beecfc8e86fdd83811f9cc9bf500993b63069923beecfc8e86fdd83811f9cc9bf500993b63069923beecfc8e86fdd83811f9cc9bf500993b63069923beecfc8e86fdd83811f9cc9bf500993b63069923beecfc8e86fdd83811f9cc9bf500993b63069923be";
  B "ecfc8e86fdd83811f9cc9bf500993b63069923beecfc8e86fdd83811f9cc9bf500993b63069923beecfc8e86fdd83811f9cc9bf500993b63069923beecfc8e86fdd83811f9cc9bf500993b63069923beecfc8e86fdd83811f9cc9bf500993b63069923beecfc8e86fdd83811f9cc9bf500993b63069923be";
  B "ecfc8e86fdd83811f9cc9bf500993b63069923beecfc8e86fdd83811f9cc9bf500993b63069923beecfc8e86fdd83811f9cc9bf500993b63069923beecfc8e86fdd83811f9cc9bf500993b63069923beecfc8e86fdd83811f9cc9bf500993b63069923beecfc8e86fdd83811f9cc9bf500993b63069923be";
  B "ecfc8e86fdd83811f9cc9bf500993b63069923beecfc8e86fdd83811f9cc9bf500993b63069923beecfc8e86fdd83811f9cc9bf500993b63069923beecfc8e86fdd83811f9cc9bf500993b63069923beecfc8e86fdd83811f9cc9bf500993b63069923beecfc8e86fdd83811f9cc9bf500993b63069923be";
  B "ecfc8e86fdd83811f9cc9bf500993b63069923beecfc8e86fdd83811f9cc9bf500993b63069923beecfc8e86fdd83811f9cc9bf500993b63069923beecfc8e86fdd83811f9cc9bf500993b63069923beecfc8e86fdd83811f9cc9bf500993b63069923beecfc8e86fdd83811f9cc9bf500993b63069923be";
  B "ecfc8e86fdd83811f9cc9bf500993b63069923beecfc8e86fdd83811f9cc9bf500993b63069923beecfc8e86fdd83811f9cc9bf500993b63069923beecfc8e86fdd83811f9cc9bf500993b63069923beecfc8e86fdd83811f9cc9bf500993b63069923beecfc8e86fdd83811f9cc9bf500993b63069923be";
  B "ecfc8e86fdd83811f9cc9bf500993b63069923beecfc8e86fdd83811f9cc9bf500993b63069923beecfc8e86fdd83811f9cc9bf500993b63069923beecfc8e86fdd83811f9cc9bf500993b63069923beecfc8e86fdd83811f9cc9bf500993b63069923beecfc8e86fdd83811f9cc9bf500993b63069923be";
  B "ecfc8e86fdd83811f9cc9bf500993b63069923beecfc8e86fdd83811f9cc9bf500993b63069923beecfc8e86fdd83811f9cc9bf500993b63069923beecfc8e86fdd83811f9cc9bf500993b63069923beecfc8e86fdd83811f9cc9bf500993b63069923beecfc8e86fdd83811f9cc9bf500993b63069923be";
  B "ecfc8e86fdd83811f9cc9bf500993b63069923beecfc8e86fdd83811f9cc9bf500993b63069923beecfc8e86fdd83811f9cc9bf500993b63069923beecfc8e86fdd83811f9cc9bf500993b63069923beecfc8e86fdd83811f9cc9bf500993b63069923beecfc8e86fdd83811f9cc9bf500993b63069923be";
  B "ecfc8e86fdd83811f9cc9bf500993b63069923beecfc8e86fdd83811f9cc9bf500993b63069923beecfc8e86fdd83811f9cc9bf500993b63069923beecfc8e86fdd83811f9cc9bf500993b63069923beecfc8e86fdd83811f9cc9bf500993b63069923beecfc8e86fdd83811f9cc9bf500993b63069923be";
  B "ecfc8e86fdd83811f9cc9bf500993b63069923beecfc8e86fdd83811f9cc9bf500993b63069923beecfc8e86fdd83811f9cc9bf500993b63069923beecfc8e86fdd83811f9cc9bf500993b63069923beecfc8e86fdd83811f9cc9bf500993b63069923beecfc8e86fdd83811f9cc9bf500993b63069923be";
  B "ecfc8e86fdd83811f9cc9bf500993b63069923beecfc8e86fdd83811f9cc9bf500993b63069923beecfc8e86fdd83811f9cc9bf500993b63069923beecfc8e86fdd83811f9cc9bf500993b63069923beecfc8e86fdd83811f9cc9bf500993b63069923beecfc8e86fdd83811f9cc9bf500993b63069923be";
  B "ecfc8e86fdd83811f9cc9bf500993b63069923beecfc8e86fdd83811f9cc9bf500993b63069923beecfc8e86fdd83811f9cc9bf500993b63069923beecfc8e86fdd83811f9cc9bf500993b63069923beecfc8e86fdd83811f9cc9bf500993b63069923beecfc8e86fdd83811f9cc9bf500993b63069923be";
  B "ecfc8e86fdd83811f9cc9bf500993b63069923beecfc8e86fdd83811f9cc9bf500993b63069923beecfc8e86fdd83811f9cc9bf500993b63069923beecfc8e86fdd83811f9cc9bf500993b63069923beecfc8e86fdd83811f9cc9bf500993b63069923beecfc8e86fdd83811f9cc9bf500993b63069923be";
  B "ecfc8e86fdd83811f9cc9bf500993b63069923beecfc8e86fdd83811f9cc9bf500993b63069923beecfc8e86fdd83811f9cc9bf500993b63069923beecfc8e86fdd83811f9cc9bf500993b63069923beecfc8e86fdd83811f9cc9bf500993b63069923beecfc8e86fdd83811f9cc9bf500993b63069923be";
  B "ecfc8e86fdd83811f9cc9bf500993b63069923beecfc8e86fdd83811f9cc9bf500993b63069923beecfc8e86fdd83811f9cc9bf500993b63069923beecfc8e86fdd83811f9cc9bf500993b63069923beecfc8e86fdd83811f9cc9bf500993b63069923be373a707269766174656930656565"]).

Definition hash_of (f : bytes) : option bytes := match FromTorrentFile sha1 (mkslice f []) (B ".") with Ok t => Some (t_infohash t) | _ => None end.
(** src/torrent/torrent_test.go:10-49. For the largest file only the part that makes the infohash (torrent.go:79-105) is run, the
    piece map taking minutes. *)
Example TestFromTorrentFile_multifile : hash_of multifile_torrent = Some (unhex (B "a976fdd2ccce699eab604115408ead8560c2d095")).
Proof. vm_compute. reflexivity. Qed.
Example TestFromTorrentFile_medfile : hash_of medfile_torrent = Some (unhex (B "a554b7cc4616ae2fce43fabe9a7fe931aff5d85c")).
Proof. vm_cast_no_check (eq_refl (Some (unhex (B "a554b7cc4616ae2fce43fabe9a7fe931aff5d85c")))). Qed.
Example TestFromTorrentFile_bigfile : (do v <- decode_text bigfile_torrent;
    match v with VDict d => do i <- GetDict d (B "info"); Ok (sha1 (fst (Encode (VDict i)))) | _ => Panic end) =
  Ok (unhex (B "658a9fbffae3c07e2320b7c4b144da978296dcc7")).
Proof. vm_compute. reflexivity. Qed.
(** The files are canonical bencoding: decoding and encoding gives the same bytes. *)
Definition again (f : bytes) : bool := match decode_text f with Ok v => enc_ok v f | _ => false end.
Example torrent_files_round_trip : forallb again [multifile_torrent; tinyfile_torrent; medfile_torrent; bigfile_torrent] = true.
Proof. vm_compute. reflexivity. Qed.

(** test/gen_f.py:12-20: n bytes, 0 to 255 again and again. *)
Fixpoint gen_f (n : nat) (i : Z) : bytes := match n with O => [] | S n' => z2b i :: gen_f n' ((i + 1) mod 256) end.
Definition gen (n : Z) : bytes := gen_f (Z.to_nat n) 0.
Definition mpaths : list (bytes * Z) := [(B "d1/d1.1/d1.1.file1", 256); (B "d1/d1.2/d1.2.file1", 256); (B "d2/d2.file1", 256); (B "d2/d2.file2", 256);
  (B "file1", 256); (B "file2", 512); (B "file3", 1024); (B "file4", 25600)].
(** The disk of test/: the files of multifile.tar.gz and tinyfile.tar.gz; the process is in /t. *)
Definition mdisk : world := mkw [B "t"]
  (combine (map (fun x => place [B "t"] (Join [B "multifile"; fst x])) mpaths) (seq 0 8) ++ [(place [B "t"] (B "tinyfile"), 8%nat)])
  (map (fun x => gen (snd x)) mpaths ++ [gen 8192]) [] [].
(** src/torrent/info/info_test.go:13-88, first row *)
Example TestCreateTorInfo :
  match CreateTorInfo sha1 100 [] mdisk (map fst mpaths) (B ".") (B "multifile") 32768 with
  | Ok ti => ti_lastlen ti = 28416 /\ sha1 (fst (Encode (VDict (InfoBencode ti)))) = unhex (B "a976fdd2ccce699eab604115408ead8560c2d095")
  | _ => False
  end.
Proof. vm_compute. auto. Qed.
(** The torrent file opened on that disk: every piece is found good, and nothing on the disk changes. *)
Definition full (f : bytes) : bool :=
  match FromTorrentFile sha1 (mkslice f []) (B ".") with
  | Ok t => match open_and_validate sha1 (t_info t) mdisk with
            | (Ok bf, w) => (bnset bf =? ti_npieces (t_info t)) && forallb (fun x => beqb (fst x) (snd x)) (combine (w_inos w) (w_inos mdisk)) && Nat.eqb (List.length (w_inos w)) 9
            | _ => false
            end
  | _ => false
  end.
Example torrent_files_validate : full multifile_torrent = true /\ full tinyfile_torrent = true.
Proof. vm_compute. auto. Qed.
(** A block of tinyfile asked for and sent: bytes 100 to 149 of piece 3. *)
Example tinyfile_served :
  match FromTorrentFile sha1 (mkslice tinyfile_torrent []) (B ".") with
  | Ok t => match open_and_validate sha1 (t_info t) mdisk with
            | (Ok bf, w) => match handleRequest (t_info t) bf 3 100 50 (mkslice (zeros (ti_plen (t_info t))) []) w with
                            | (Ok sent, _, _) => sent = [EncodeMsg (MPiece 3 100 (gen_f 50 100))]
                            | _ => False
                            end
            | _ => False
            end
  | _ => False
  end.
Proof. vm_compute. reflexivity. Qed.
