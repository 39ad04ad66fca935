(** Labels of key texts C153 - C154.

    Statements only: every theorem is closed by the lemma of the same name (in lower case) in
    LabelThms.v.  Generated by tools/gen_prop.py. *)
From Coq Require Import String.
From Verif Require Import Outcome Bytes Str Secp SpecSecp ModelBip32 SpecBip32 SpecLabels.
From Verif Require LabelThms.
Import KeyTextThms(ex_xprv, ex_xpub, ex_text, ex_pub_text).
Open Scope N_scope.

(** ** C153. The label of a text tells whether it holds a private key.  A text that XPrv::to_string writes is
    labelled prv. This is false: to_string takes any prefix, and with each of the four public prefixes it
    writes every private key under a label like xpub. The text holds the whole private key
    (ExtendedKey::from_str returns it), while neither XPrv nor XPub can be read from it. Only for reading the
    label decides: a text is read as a private key only under prv and as a public key only under pub. *)
Theorem C153_private_key_under_public_label : forall (x : xprv) (p : prefix), valid_xprv x -> In p pub_prefixes ->
  exists (s : str) (e : extended_key) (kb : bytes),
    xprv_to_string x p = Ok s /\ length s = 111%nat /\ firstn 4 s = chars p /\ skipn 1 (firstn 4 s) = lit "pub"
    /\ ek_from_str s = Ok e /\ ek_attrs e = xprv_attrs x /\ key_bytes e = 0 :: kb /\ is_ser256 (private_key x) kb
    /\ xprv_from_str s = Err ECrypto /\ xpub_from_str s = Err ECrypto.
Proof. exact LabelThms.c153_private_key_under_public_label. Qed.
Print Assumptions C153_private_key_under_public_label.
Theorem C153_label_tells_refuted :
  ~ (forall (x : xprv) (p : prefix) (s : str), valid_xprv x -> In p (prv_prefixes ++ pub_prefixes) ->
       xprv_to_string x p = Ok s -> skipn 1 (firstn 4 s) = lit "prv").
Proof. exact LabelThms.c153_label_tells_refuted. Qed.
Print Assumptions C153_label_tells_refuted.
(** What does hold: a text is read as a private key only if its label ends in prv and as a public key only if
    its label ends in pub. *)
Theorem C153_label_tells_partial : forall (s : str),
  (forall x, xprv_from_str s = Ok x -> skipn 1 (firstn 4 s) = lit "prv") /\ (forall y, xpub_from_str s = Ok y -> skipn 1 (firstn 4 s) = lit "pub").
Proof. exact LabelThms.c153_label_tells_partial. Qed.
Print Assumptions C153_label_tells_partial.
Example C153_example : valid_xprv ex_xprv /\ In XPUB pub_prefixes /\ xprv_from_str ex_text = Ok ex_xprv /\ xpub_from_str ex_pub_text = Ok ex_xpub.
Proof. exact LabelThms.c153_example. Qed.

(** ** C154. Only registered versions are read under a standard label.  A text that starts with one of the
    eight standard labels is read only if it holds the version registered for that label. This is false: the
    label is taken from the text and the version from the data, and they are not compared. The exact versions
    that occur are eight per label in texts of 111 characters and, for tprv and tpub, 406 more in texts of 112
    characters. Six of the eight are written and read back for every key, so every private key has several
    texts under the same label. *)
(** Every key with a version strictly between the first and the last one is written with the label and read
    back. *)
Theorem C154_inner_versions_round_trip : forall (l : str) (k : nat) (lo hi v : N) (a : attrs) (kb : bytes),
  In (l, k, lo, hi) label_versions -> lo < v < hi -> valid_attrs a -> has_bytes 33 kb ->
  exists s, ek_to_string (mkExt (mkPrefix l v) a kb) = Ok s /\ firstn 4 s = l /\ length s = k /\ ek_from_str s = Ok (mkExt (mkPrefix l v) a kb).
Proof. exact LabelThms.c154_inner_versions_round_trip. Qed.
Print Assumptions C154_inner_versions_round_trip.
(** The versions of the texts that start with a label and are read, by the length of the text. *)
Theorem C154_versions_behind_a_label : forall (l : str) (k : nat) (v : N), In l labels ->
  ((exists s e, ek_from_str s = Ok e /\ firstn 4 s = l /\ length s = k /\ version (ek_prefix e) = v)
   <-> exists lo hi, In (l, k, lo, hi) label_versions /\ lo <= v <= hi).
Proof. exact LabelThms.c154_versions_behind_a_label. Qed.
Print Assumptions C154_versions_behind_a_label.
Theorem C154_only_registered_refuted :
  ~ (forall (s : str) (e : extended_key), ek_from_str s = Ok e -> In (firstn 4 s) labels -> In (firstn 4 s, version (ek_prefix e)) registered).
Proof. exact LabelThms.c154_only_registered_refuted. Qed.
Print Assumptions C154_only_registered_refuted.
(** So a private key has several texts with the same label, all of which are read as that key. *)
Theorem C154_several_texts_of_a_key : forall (l : str) (k : nat) (lo hi v v' : N) (x : xprv),
  In (l, k, lo, hi) label_versions -> skipn 1 l = lit "prv" -> lo < v < hi -> lo < v' < hi -> v <> v' -> valid_xprv x ->
  exists s s', s <> s' /\ length s = k /\ length s' = k /\ firstn 4 s = l /\ firstn 4 s' = l /\ xprv_from_str s = Ok x /\ xprv_from_str s' = Ok x.
Proof. exact LabelThms.c154_several_texts_of_a_key. Qed.
Print Assumptions C154_several_texts_of_a_key.
Example C154_example : In (lit "xprv", 111%nat, 76066274, 76066281) label_versions /\ In (lit "xprv", 76066276) registered
  /\ 76066274 < 76066277 < 76066281 /\ valid_xprv ex_xprv.
Proof. exact LabelThms.c154_example. Qed.
