(** The SHA-256 checksums of the eight word lists in the repository of BIP39. *)
From Verif Require Import Outcome Bytes Str ModelBip39 ModelLangs SpecConst.
Open Scope N_scope.

Definition list_checksum_all (l : language_all) : N :=
  match l with
  | Compiled l => list_checksum l
  | ChineseTraditional => 0x417b26b3d8500a4ae3d59717d7011952db6fc2fb84b807f3f94ac734e89c1b5f
  | French => 0xebc3959ab7801a1df6bac4fa7d970652f1df76b683cd2f4003c941c63d517e59
  | Italian => 0xd392c49fdb700a24cd1fceb237c1f65dcc128f6b34a8aacb58b59384b5c648c2
  | Japanese => 0x2eed0aef492291e061633d7ad8117f1a2b03eb80a29d0e4e3117ac2528d05ffd
  | Korean => 0x9e95f86c167de88f450f0aaf89e87f6624a57f973c67b516e338e8e8b8897f60
  | Spanish => 0x46846a5a0139d1e3cb77293e521c2865f7bcdb82c44e8d0a06a2cd0ecba48c0b
  end.
