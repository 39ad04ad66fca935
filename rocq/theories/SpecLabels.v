(** What a standard label says about the version in a text of an extended key. *)
From Coq Require Import String.
From Verif Require Import Outcome Bytes Str ModelBip32 SpecBip32.
Open Scope N_scope.

Definition labels : list str := map fst registered.
(** Label, length of the text, first and last version. *)
Definition label_versions : list (str * nat * N * N) :=
  [(lit "tprv", 111%nat, 70615955, 70615962); (lit "tprv", 112%nat, 4095725395, 4095725800);
   (lit "tpub", 111%nat, 70617037, 70617044); (lit "tpub", 112%nat, 4095788177, 4095788582);
   (lit "xprv", 111%nat, 76066274, 76066281); (lit "xpub", 111%nat, 76067357, 76067364);
   (lit "yprv", 111%nat, 77428854, 77428861); (lit "ypub", 111%nat, 77429937, 77429944);
   (lit "zprv", 111%nat, 78791434, 78791441); (lit "zpub", 111%nat, 78792517, 78792524)].
