(** Proofs of the properties of extended keys over any key type (restated in PropGeneric.v). *)
From Coq Require Import String ZifyBool ZifyNat ZifyN.
From Verif Require Import Outcome Bytes Str Hash HashLemmas Ripemd Secp SpecSecp SecpGroup SecpProofs Base58 ModelBip32 SpecBip32.
From Verif Require Import StrLemmas Base58Proofs PathThms ExtProofs KeyTextThms DeriveThms ModelGeneric SpecGeneric.
Open Scope N_scope.

(** ** A step *)
Definition g_input {K P} (T : private_impl K P) (x : gxprv K) (c : N) : bytes :=
  (if child_is_hardened c then [0] ++ prv_to_bytes T (g_private_key x)
   else pub_to_bytes (prv_public T) (prv_public_key T (g_private_key x))) ++ child_to_bytes c.
Lemma gxprv_step {K P} (T : private_impl K P) x c :
  let I := hmac_sha512 (chain_code (gxprv_attrs x)) (g_input T x c) in
  gxprv_derive_child T x c =
    if depth (gxprv_attrs x) <? 255 then
      match prv_derive_child T (g_private_key x) (firstn 32 I) with
      | Ok k => Ok (mkGXPrv k (mkAttrs (depth (gxprv_attrs x) + 1) (pub_fingerprint (prv_public T) (prv_public_key T (g_private_key x))) c (right_half I)))
      | Err e => Err e
      | Panic => Panic
      end
    else Err EDepth.
Proof.
  intros I. unfold gxprv_derive_child. rewrite checked_depth. destruct (depth (gxprv_attrs x) <? 255); reflexivity.
Qed.
Lemma gxpub_step {P} (T : public_impl P) y c :
  let I := hmac_sha512 (chain_code (gxpub_attrs y)) (pub_to_bytes T (g_public_key y) ++ child_to_bytes c) in
  gxpub_derive_child T y c =
    if child_is_hardened c then Err EChildNumber else
    if depth (gxpub_attrs y) <? 255 then
      match pub_derive_child T (g_public_key y) (firstn 32 I) with
      | Ok k => Ok (mkGXPub k (mkAttrs (depth (gxpub_attrs y) + 1) (pub_fingerprint T (g_public_key y)) c (right_half I)))
      | Err e => Err e
      | Panic => Panic
      end
    else Err EDepth.
Proof.
  intros I. unfold gxpub_derive_child. rewrite checked_depth. destruct (child_is_hardened c); [reflexivity|].
  destruct (depth (gxpub_attrs y) <? 255); reflexivity.
Qed.

(** C133 *)
Lemma c133_private_child : forall (K P : Type) (T : private_impl K P) (x : gxprv K) (c : N) (ib : bytes), u32 c -> is_ser32 c ib ->
  let data := (if 2 ^ 31 <=? c then [0] ++ prv_to_bytes T (g_private_key x)
               else pub_to_bytes (prv_public T) (prv_public_key T (g_private_key x))) ++ ib in
  let I := hmac_sha512 (chain_code (gxprv_attrs x)) data in
  (forall y, gxprv_derive_child T x c = Ok y <->
     depth (gxprv_attrs x) < 255 /\ prv_derive_child T (g_private_key x) (firstn 32 I) = Ok (g_private_key y)
     /\ gxprv_attrs y = mkAttrs (depth (gxprv_attrs x) + 1) (gxpub_fingerprint (prv_public T) (gxprv_public_key T x)) c (right_half I))
  /\ (forall e, gxprv_derive_child T x c = Err e <->
     (255 <= depth (gxprv_attrs x) /\ e = EDepth)
     \/ (depth (gxprv_attrs x) < 255 /\ prv_derive_child T (g_private_key x) (firstn 32 I) = Err e))
  /\ (gxprv_derive_child T x c = Panic <->
     depth (gxprv_attrs x) < 255 /\ prv_derive_child T (g_private_key x) (firstn 32 I) = Panic).
Proof.
  intros K P T x c ib Hc Hi data I. rewrite gxprv_step. apply ser32_iff in Hi; [|exact Hc]. subst ib.
  assert (E : g_input T x c = data) by (unfold g_input, data; rewrite hardened_iff by exact Hc; reflexivity). rewrite E. fold I. clearbody I.
  destruct (N.ltb_spec (depth (gxprv_attrs x)) 255) as [L|L].
  - destruct (prv_derive_child T (g_private_key x) (firstn 32 I)) as [k|e'|]; (split; [|split]).
    + intros y. split.
      * intros H. injection H as <-. repeat split; auto.
      * intros (_ & H1 & H2). injection H1 as ->. destruct y as [k a]. cbn in *. subst a. reflexivity.
    + intros e. split; [intros H; discriminate H|]. intros [[H _]|[_ H]]; [lia|discriminate H].
    + split; [intros H; discriminate H|intros [_ H]; discriminate H].
    + intros y. split; [intros H; discriminate H|intros (_ & H & _); discriminate H].
    + intros e. split; [intros H; injection H as <-; auto|]. intros [[H _]|[_ H]]; [lia|injection H as <-; reflexivity].
    + split; [intros H; discriminate H|intros [_ H]; discriminate H].
    + intros y. split; [intros H; discriminate H|intros (_ & H & _); discriminate H].
    + intros e. split; [intros H; discriminate H|]. intros [[H _]|[_ H]]; [lia|discriminate H].
    + split; auto.
  - split; [|split].
    + intros y. split; [intros H; discriminate H|intros (H & _); lia].
    + intros e. split; [intros H; injection H as <-; auto|]. intros [[_ ->]|[H _]]; [reflexivity|lia].
    + split; [intros H; discriminate H|intros [H _]; lia].
Qed.
Lemma c133_public_child : forall (P : Type) (T : public_impl P) (x : gxpub P) (c : N) (ib : bytes), u32 c -> is_ser32 c ib ->
  let I := hmac_sha512 (chain_code (gxpub_attrs x)) (pub_to_bytes T (g_public_key x) ++ ib) in
  (forall y, gxpub_derive_child T x c = Ok y <->
     c < 2 ^ 31 /\ depth (gxpub_attrs x) < 255 /\ pub_derive_child T (g_public_key x) (firstn 32 I) = Ok (g_public_key y)
     /\ gxpub_attrs y = mkAttrs (depth (gxpub_attrs x) + 1) (gxpub_fingerprint T x) c (right_half I))
  /\ (forall e, gxpub_derive_child T x c = Err e <->
     (2 ^ 31 <= c /\ e = EChildNumber)
     \/ (c < 2 ^ 31 /\ 255 <= depth (gxpub_attrs x) /\ e = EDepth)
     \/ (c < 2 ^ 31 /\ depth (gxpub_attrs x) < 255 /\ pub_derive_child T (g_public_key x) (firstn 32 I) = Err e))
  /\ (gxpub_derive_child T x c = Panic <->
     c < 2 ^ 31 /\ depth (gxpub_attrs x) < 255 /\ pub_derive_child T (g_public_key x) (firstn 32 I) = Panic).
Proof.
  intros P T x c ib Hc Hi I. rewrite gxpub_step. apply ser32_iff in Hi; [|exact Hc]. subst ib. fold I. clearbody I.
  rewrite hardened_iff by exact Hc. destruct (N.leb_spec (2 ^ 31) c) as [X|X].
  { split; [|split].
    - intros y. split; [intros H; discriminate H|intros (H & _); lia].
    - intros e. split; [intros H; injection H as <-; auto|]. intros [[_ ->]|[[H _]|[H _]]]; [reflexivity|lia..].
    - split; [intros H; discriminate H|intros (H & _); lia]. }
  destruct (N.ltb_spec (depth (gxpub_attrs x)) 255) as [L|L].
  - destruct (pub_derive_child T (g_public_key x) (firstn 32 I)) as [k|e'|]; (split; [|split]).
    + intros y. split.
      * intros H. injection H as <-. repeat split; auto.
      * intros (_ & _ & H1 & H2). injection H1 as ->. destruct y as [k a]. cbn in *. subst a. reflexivity.
    + intros e. split; [intros H; discriminate H|]. intros [[H _]|[(_ & H & _)|(_ & _ & H)]]; [lia|lia|discriminate H].
    + split; [intros H; discriminate H|intros (_ & _ & H); discriminate H].
    + intros y. split; [intros H; discriminate H|intros (_ & _ & H & _); discriminate H].
    + intros e. split; [intros H; injection H as <-; auto 6|]. intros [[H _]|[(_ & H & _)|(_ & _ & H)]]; [lia|lia|injection H as <-; reflexivity].
    + split; [intros H; discriminate H|intros (_ & _ & H); discriminate H].
    + intros y. split; [intros H; discriminate H|intros (_ & _ & H & _); discriminate H].
    + intros e. split; [intros H; discriminate H|]. intros [[H _]|[(_ & H & _)|(_ & _ & H)]]; [lia|lia|discriminate H].
    + split; auto.
  - split; [|split].
    + intros y. split; [intros H; discriminate H|intros (_ & H & _); lia].
    + intros e. split; [intros H; injection H as <-; auto|]. intros [[H _]|[(_ & _ & ->)|(_ & H & _)]]; [lia|reflexivity|lia].
    + split; [intros H; discriminate H|intros (_ & H & _); lia].
Qed.
(** ** Paths *)
Lemma along_gprv {K P} (T : private_impl K P) x p : gxprv_derive_from_path T x p = along (gxprv_derive_child T) p (Ok x).
Proof. reflexivity. Qed.
Lemma along_gpub {P} (T : public_impl P) y p : gxpub_derive_from_path T y p = along (gxpub_derive_child T) p (Ok y).
Proof. reflexivity. Qed.
Lemma along_gnew {K P} (T : private_impl K P) seed p : gxprv_new_from_path T seed p = along (gxprv_derive_child T) p (gxprv_new T seed).
Proof. reflexivity. Qed.
Lemma c133_paths_compose : forall (K P : Type) (T : private_impl K P) (U : public_impl P) (x : gxprv K) (y : gxpub P) (seed : bytes) (p q : list N) (c : N),
  gxprv_derive_from_path T x (p ++ q) = bind (gxprv_derive_from_path T x p) (fun x' => gxprv_derive_from_path T x' q)
  /\ gxpub_derive_from_path U y (p ++ q) = bind (gxpub_derive_from_path U y p) (fun y' => gxpub_derive_from_path U y' q)
  /\ gxprv_derive_from_path T x [] = Ok x /\ gxpub_derive_from_path U y [] = Ok y
  /\ gxprv_derive_from_path T x [c] = gxprv_derive_child T x c /\ gxpub_derive_from_path U y [c] = gxpub_derive_child U y c
  /\ gxprv_new_from_path T seed p = bind (gxprv_new T seed) (fun x' => gxprv_derive_from_path T x' p).
Proof.
  intros K P T U x y seed p q c. rewrite !along_gprv, !along_gpub, along_gnew, !along_app.
  split; [apply along_bind|]. split; [apply along_bind|]. split; [reflexivity|]. split; [reflexivity|].
  split; [reflexivity|]. split; [reflexivity|]. apply along_bind.
Qed.
Lemma gprv_ok {K P} (T : private_impl K P) x c y : gxprv_derive_child T x c = Ok y ->
  depth (gxprv_attrs x) < 255 /\ exists I, has_bytes 64 I /\ prv_derive_child T (g_private_key x) (firstn 32 I) = Ok (g_private_key y)
    /\ gxprv_attrs y = mkAttrs (depth (gxprv_attrs x) + 1) (pub_fingerprint (prv_public T) (prv_public_key T (g_private_key x))) c (right_half I).
Proof.
  intros H. rewrite gxprv_step in H. destruct (N.ltb_spec (depth (gxprv_attrs x)) 255) as [L|L]; [|discriminate H]. split; [exact L|].
  set (I := hmac_sha512 _ _) in H. assert (HI : has_bytes 64 I) by apply hmac_bytes. clearbody I. exists I. split; [exact HI|].
  destruct (prv_derive_child T (g_private_key x) (firstn 32 I)) as [k|e|]; [|discriminate H..].
  assert (E : y = mkGXPrv k (mkAttrs (depth (gxprv_attrs x) + 1) (pub_fingerprint (prv_public T) (prv_public_key T (g_private_key x))) c (right_half I))) by congruence.
  subst y. split; reflexivity.
Qed.
Lemma gpub_ok {P} (T : public_impl P) x c y : gxpub_derive_child T x c = Ok y ->
  child_is_hardened c = false /\ depth (gxpub_attrs x) < 255 /\ exists I, has_bytes 64 I
    /\ gxpub_attrs y = mkAttrs (depth (gxpub_attrs x) + 1) (pub_fingerprint T (g_public_key x)) c (right_half I).
Proof.
  intros H. rewrite gxpub_step in H. destruct (child_is_hardened c); [discriminate H|]. split; [reflexivity|].
  destruct (N.ltb_spec (depth (gxpub_attrs x)) 255) as [L|L]; [|discriminate H]. split; [exact L|].
  set (I := hmac_sha512 _ _) in H. assert (HI : has_bytes 64 I) by apply hmac_bytes. clearbody I. exists I. split; [exact HI|].
  destruct (pub_derive_child T (g_public_key x) (firstn 32 I)) as [k|e|]; [|discriminate H..].
  assert (E : y = mkGXPub k (mkAttrs (depth (gxpub_attrs x) + 1) (pub_fingerprint T (g_public_key x)) c (right_half I))) by congruence.
  subst y. reflexivity.
Qed.
Lemma along_depth {A} (f : A -> N -> R32 A) (at_ : A -> attrs) :
  (forall x c y, f x c = Ok y -> depth (at_ x) < 255 /\ depth (at_ y) = depth (at_ x) + 1 /\ child_number (at_ y) = c) ->
  forall p x y, along f p (Ok x) = Ok y ->
  depth (at_ y) = depth (at_ x) + len p /\ (p <> [] -> depth (at_ y) <= 255 /\ child_number (at_ y) = last p 0).
Proof.
  intros S. induction p as [|c p IH]; intros x y H.
  - injection H as <-. unfold len. cbn [length]. split; [lia|congruence].
  - rewrite along_cons in H. apply bind_ok in H. destruct H as (x' & Hx & H). apply S in Hx.
    destruct Hx as (Hd & E1 & E2). specialize (IH x' y H). destruct IH as [IH1 IH2].
    split; [unfold len in *; cbn [length]; lia|]. intros _. destruct p as [|c' p].
    + injection H as <-. cbn [last]. split; [lia|exact E2].
    + destruct IH2 as [L C]; [discriminate|]. split; [exact L|]. rewrite C. reflexivity.
Qed.
(** The depth is the number of steps, at most 255, and the last step gives the child number. *)
Lemma c133_depth : forall (K P : Type) (T : private_impl K P) (U : public_impl P) (x x' : gxprv K) (y y' : gxpub P) (p : list N),
  (gxprv_derive_from_path T x p = Ok x' ->
     depth (gxprv_attrs x') = depth (gxprv_attrs x) + len p
     /\ (p <> [] -> depth (gxprv_attrs x') <= 255 /\ child_number (gxprv_attrs x') = last p 0))
  /\ (gxpub_derive_from_path U y p = Ok y' ->
     depth (gxpub_attrs y') = depth (gxpub_attrs y) + len p
     /\ (p <> [] -> depth (gxpub_attrs y') <= 255 /\ child_number (gxpub_attrs y') = last p 0)).
Proof.
  intros K P T U x x' y y' p. rewrite along_gprv, along_gpub. split.
  - apply (along_depth (gxprv_derive_child T) gxprv_attrs). intros a c b H. apply gprv_ok in H. destruct H as (H & I & _ & _ & ->). repeat split; assumption || reflexivity.
  - apply (along_depth (gxpub_derive_child U) gxpub_attrs). intros a c b H. apply gpub_ok in H. destruct H as (_ & H & I & _ & ->). repeat split; assumption || reflexivity.
Qed.
(** No public path passes a hardened number, whatever the key type. *)
Lemma c133_hardened : forall (P : Type) (U : public_impl P) (y y' : gxpub P) (p q : list N) (c : N), u32 c -> 2 ^ 31 <= c ->
  gxpub_derive_from_path U y p = Ok y' -> gxpub_derive_from_path U y (p ++ c :: q) = Err EChildNumber.
Proof.
  intros P U y y' p q c Hc H E. rewrite along_gpub in *. rewrite along_app, E, along_cons.
  unfold gxpub_derive_child. rewrite hardened_iff by exact Hc. destruct (N.leb_spec (2 ^ 31) c) as [X|X]; [reflexivity|lia].
Qed.
Lemma to_generic_bind {A B} (f : A -> R32 A) (g : B -> R32 B) (h : A -> B) m : (forall a, g (h a) = res_map h (f a)) ->
  bind (res_map h m) g = res_map h (bind m f).
Proof. intros H. destruct m; [apply H|reflexivity..]. Qed.
Lemma inst_prv_step x c : gxprv_derive_child libsecp_private (to_generic x) c = res_map to_generic (xprv_derive_child x c).
Proof.
  unfold xprv_derive_child. rewrite xprv_step, gxprv_step. unfold to_generic at 1. cbn [gxprv_attrs].
  destruct (depth (xprv_attrs x) <? 255); [|reflexivity].
  change (g_input libsecp_private (to_generic x) c) with (priv_input (private_key x) c).
  change (gxprv_attrs (to_generic x)) with (xprv_attrs x). change (g_private_key (to_generic x)) with (private_key x).
  generalize (hmac_sha512 (chain_code (xprv_attrs x)) (priv_input (private_key x) c)). intros I.
  cbn [libsecp_private prv_derive_child prv_public prv_public_key libsecp_public pub_fingerprint]. unfold private_derive_child.
  destruct (secret_parse (firstn 32 I)) as [t|]; [|reflexivity]. cbn [or_panic bind].
  destruct (secret_tweak_add (private_key x) t) as [k|]; reflexivity.
Qed.
Lemma inst_pub_step y c : gxpub_derive_child libsecp_public (to_generic_pub y) c = res_map to_generic_pub (xpub_derive_child y c).
Proof.
  unfold xpub_derive_child. rewrite xpub_step, gxpub_step. unfold to_generic_pub at 1. cbn [gxpub_attrs].
  destruct (child_is_hardened c); [reflexivity|]. destruct (depth (xpub_attrs y) <? 255); [|reflexivity].
  change (gxpub_attrs (to_generic_pub y)) with (xpub_attrs y). change (g_public_key (to_generic_pub y)) with (public_key y).
  change (pub_to_bytes libsecp_public) with public_to_bytes.
  generalize (hmac_sha512 (chain_code (xpub_attrs y)) (public_to_bytes (public_key y) ++ child_to_bytes c)). intros I.
  cbn [libsecp_public pub_derive_child pub_fingerprint]. unfold public_derive_child.
  destruct (secret_parse (firstn 32 I)) as [t|]; [|reflexivity]. cbn [or_panic bind].
  destruct (public_tweak_add (public_key y) t) as [k|]; reflexivity.
Qed.
Lemma along_inst {A B} (f : A -> N -> R32 A) (g : B -> N -> R32 B) (h : A -> B) : (forall a c, g (h a) c = res_map h (f a c)) ->
  forall p m, along g p (res_map h m) = res_map h (along f p m).
Proof.
  intros H. induction p as [|c p IH]; intros m; [reflexivity|].
  change (along g (c :: p) (res_map h m)) with (along g p (bind (res_map h m) (fun k => g k c))).
  rewrite (to_generic_bind (fun a => f a c) (fun b => g b c) h) by (intros a; apply H). apply IH.
Qed.
(** XPrv and XPub are the case of libsecp256k1. *)
Lemma c133_libsecp : forall (x : xprv) (y : xpub) (seed : bytes) (p : list N) (s : str) (q : prefix),
  gxprv_new_from_path libsecp_private seed p = res_map to_generic (xprv_new_from_path seed p)
  /\ gxprv_derive_from_path libsecp_private (to_generic x) p = res_map to_generic (xprv_derive_from_path x p)
  /\ gxpub_derive_from_path libsecp_public (to_generic_pub y) p = res_map to_generic_pub (xpub_derive_from_path y p)
  /\ gxprv_public_key libsecp_private (to_generic x) = to_generic_pub (xprv_public_key x)
  /\ gxpub_fingerprint libsecp_public (to_generic_pub y) = xpub_fingerprint y
  /\ gxprv_from_str libsecp_private s = res_map to_generic (xprv_from_str s)
  /\ gxpub_from_str libsecp_public s = res_map to_generic_pub (xpub_from_str s)
  /\ gxprv_to_string libsecp_private (to_generic x) q = xprv_to_string x q
  /\ gxpub_to_string libsecp_public (to_generic_pub y) q = xpub_to_string y q.
Proof.
  intros x y seed p s q.
  assert (N : gxprv_new libsecp_private seed = res_map to_generic (xprv_new seed)).
  { unfold gxprv_new, xprv_new, xprv_new_with. destruct (negb _); [reflexivity|]. cbv zeta.
    generalize (hmac_sha512 bip39_domain_separator seed). intros I. cbn [libsecp_private prv_from_bytes].
    destruct (private_from_bytes (firstn 32 I)); reflexivity. }
  split. { rewrite along_gnew, along_new, N. apply along_inst, inst_prv_step. }
  split. { rewrite along_gprv, along_prv. apply (along_inst _ _ to_generic inst_prv_step p (Ok x)). }
  split. { rewrite along_gpub, along_pub. apply (along_inst _ _ to_generic_pub inst_pub_step p (Ok y)). }
  split; [reflexivity|]. split; [reflexivity|].
  split. { unfold gxprv_from_str, xprv_from_str. destruct (ek_from_str s) as [e| |]; [|reflexivity..]. cbn [bind]. unfold gxprv_try_from, xprv_try_from.
    destruct (prefix_is_private (ek_prefix e)); [|reflexivity]. destruct (index (key_bytes e) 0) as [b| |]; [|reflexivity..]. cbn [bind].
    destruct (b =? 0); [|reflexivity]. cbn [libsecp_private prv_from_bytes]. destruct (private_from_bytes (skipn 1 (key_bytes e))); reflexivity. }
  split. { unfold gxpub_from_str, xpub_from_str. destruct (ek_from_str s) as [e| |]; [|reflexivity..]. cbn [bind]. unfold gxpub_try_from, xpub_try_from.
    destruct (prefix_is_public (ek_prefix e)); [|reflexivity]. cbn [libsecp_public pub_from_bytes]. destruct (public_from_bytes (key_bytes e)); reflexivity. }
  split; reflexivity.
Qed.
Definition ex_toy : gxprv N := mkGXPrv 5 (mkAttrs 254 [1; 2; 3; 4] 7 (repeat 9 32)).
Example c133_example : gxprv_derive_from_path toy_private ex_toy [0; 0] = Err EDepth
  /\ match gxprv_derive_child toy_private ex_toy (2 ^ 31) with Ok y => depth (gxprv_attrs y) = 255 | _ => False end.
Proof.
  rewrite along_gprv, along_cons, !gxprv_step. unfold ex_toy. cbn [gxprv_attrs depth].
  split; [|reflexivity]. change (254 <? 255) with true. cbn iota.
  generalize (hmac_sha512 (chain_code (gxprv_attrs (mkGXPrv 5 (mkAttrs 254 [1; 2; 3; 4] 7 (repeat 9 32)))))
    (g_input toy_private (mkGXPrv 5 (mkAttrs 254 [1; 2; 3; 4] 7 (repeat 9 32))) 0)). intros I.
  cbn [toy_private prv_derive_child bind]. rewrite along_cons, gxprv_step. cbn [gxprv_attrs depth]. reflexivity.
Qed.

(** ** C134 *)
Lemma gxprv_ext_valid {K P} (T : private_impl K P) x p : private_typed T -> valid_attrs (gxprv_attrs x) -> valid_prefix p -> valid_ext (gxprv_to_extended_key T x p).
Proof.
  intros [B _] Ha Hp. split; [exact Hp|]. split; [exact Ha|]. unfold gxprv_to_extended_key. cbn [key_bytes].
  apply (has_bytes_app 1 32 [0]); [apply has_bytes_1; reflexivity|apply B].
Qed.
Lemma gxpub_ext_valid {P} (T : public_impl P) y p : public_typed T -> valid_attrs (gxpub_attrs y) -> valid_prefix p -> valid_ext (gxpub_to_extended_key T y p).
Proof. intros B Ha Hp. split; [exact Hp|]. split; [exact Ha|]. apply B. Qed.
Lemma c134_private_round_trip : forall (K P : Type) (T : private_impl K P) (x : gxprv K) (p : prefix),
  private_typed T -> valid_attrs (gxprv_attrs x) -> In p prv_prefixes ->
  exists s, gxprv_to_string T x p = Ok s /\ length s = 111%nat /\ firstn 4 s = chars p
    /\ gxprv_from_str T s = res_map (fun k => mkGXPrv k (gxprv_attrs x)) (prv_from_bytes T (prv_to_bytes T (g_private_key x)))
    /\ (prv_from_bytes T (prv_to_bytes T (g_private_key x)) = Ok (g_private_key x) -> gxprv_from_str T s = Ok x).
Proof.
  intros K P T x p B Ha Hp. destruct (in_std_prv p Hp) as [Hs Hc]. pose proof (gxprv_ext_valid T x p B Ha (std_valid p Hs)) as Ve.
  destruct (to_string_exists _ Ve) as (s & E & _). exists s. split; [exact E|].
  destruct (std_text _ _ Ve Hs E) as [S1 S2]. split; [exact S1|]. split; [exact S2|].
  assert (A : gxprv_from_str T s = res_map (fun k => mkGXPrv k (gxprv_attrs x)) (prv_from_bytes T (prv_to_bytes T (g_private_key x)))).
  { unfold gxprv_from_str. rewrite (std_round_trip _ _ Ve Hs E). cbn [bind]. unfold gxprv_try_from, gxprv_to_extended_key.
    cbn [ek_prefix key_bytes ek_attrs]. apply is_private_iff in Hc. rewrite Hc. unfold index. cbn [nth_error N.to_nat or_panic bind skipn].
    change (0 =? 0) with true. cbn iota. destruct (prv_from_bytes T (prv_to_bytes T (g_private_key x))); reflexivity. }
  split; [exact A|]. intros R. rewrite A, R. destruct x. reflexivity.
Qed.
Lemma c134_public_round_trip : forall (P : Type) (T : public_impl P) (y : gxpub P) (p : prefix),
  public_typed T -> valid_attrs (gxpub_attrs y) -> In p pub_prefixes ->
  exists s, gxpub_to_string T y p = Ok s /\ length s = 111%nat /\ firstn 4 s = chars p
    /\ gxpub_from_str T s = res_map (fun k => mkGXPub k (gxpub_attrs y)) (pub_from_bytes T (pub_to_bytes T (g_public_key y)))
    /\ (pub_from_bytes T (pub_to_bytes T (g_public_key y)) = Ok (g_public_key y) -> gxpub_from_str T s = Ok y).
Proof.
  intros P T y p B Ha Hp. destruct (in_std_pub p Hp) as [Hs Hc]. pose proof (gxpub_ext_valid T y p B Ha (std_valid p Hs)) as Ve.
  destruct (to_string_exists _ Ve) as (s & E & _). exists s. split; [exact E|].
  destruct (std_text _ _ Ve Hs E) as [S1 S2]. split; [exact S1|]. split; [exact S2|].
  assert (A : gxpub_from_str T s = res_map (fun k => mkGXPub k (gxpub_attrs y)) (pub_from_bytes T (pub_to_bytes T (g_public_key y)))).
  { unfold gxpub_from_str. rewrite (std_round_trip _ _ Ve Hs E). cbn [bind]. unfold gxpub_try_from, gxpub_to_extended_key.
    cbn [ek_prefix key_bytes ek_attrs]. apply is_public_iff in Hc. rewrite Hc.
    destruct (pub_from_bytes T (pub_to_bytes T (g_public_key y))); reflexivity. }
  split; [exact A|]. intros R. rewrite A, R. destruct y. reflexivity.
Qed.
(** What is read is what is written again, if the key type reads only what it writes. *)
Lemma c134_strict : forall (K P : Type) (T : private_impl K P) (s : str) (x : gxprv K),
  (forall b k, has_bytes 32 b -> prv_from_bytes T b = Ok k -> prv_to_bytes T k = b) -> gxprv_from_str T s = Ok x ->
  valid_attrs (gxprv_attrs x) /\ exists p, valid_prefix p /\ skipn 1 (chars p) = lit "prv" /\ chars p = firstn 4 s /\ gxprv_to_string T x p = Ok s.
Proof.
  intros K P T s x R H. unfold gxprv_from_str in H. apply bind_ok in H. destruct H as (e & He & H).
  pose proof (proj1 (c37_parsing_is_strict s e He)) as W. pose proof He as V. apply ek_from_str_iff in V. destruct V as (V & C & _).
  destruct V as (Vp & Va & Lk & Bk). unfold gxprv_try_from in H.
  destruct (prefix_is_private (ek_prefix e)) eqn:Ep; [|discriminate H]. apply is_private_iff in Ep.
  destruct e as [p a [|b kb]]; [discriminate Lk|]. cbn [ek_prefix ek_attrs key_bytes] in *. unfold index in H. cbn [nth_error N.to_nat or_panic bind skipn] in H.
  destruct (N.eqb_spec b 0) as [->|]; [|discriminate H]. apply bind_ok in H. destruct H as (k & Hk & H). injection H as <-.
  split; [exact Va|]. exists p. split; [exact Vp|]. split; [exact Ep|]. split; [exact C|].
  unfold gxprv_to_string, gxprv_to_extended_key. cbn [gxprv_attrs g_private_key]. rewrite (R kb k); [exact W| |exact Hk].
  split; [injection Lk as Lk; exact Lk|inversion Bk; assumption].
Qed.
Lemma c134_strict_public : forall (P : Type) (T : public_impl P) (s : str) (y : gxpub P),
  (forall b k, has_bytes 33 b -> pub_from_bytes T b = Ok k -> pub_to_bytes T k = b) -> gxpub_from_str T s = Ok y ->
  valid_attrs (gxpub_attrs y) /\ exists p, valid_prefix p /\ skipn 1 (chars p) = lit "pub" /\ chars p = firstn 4 s /\ gxpub_to_string T y p = Ok s.
Proof.
  intros P T s y R H. unfold gxpub_from_str in H. apply bind_ok in H. destruct H as (e & He & H).
  pose proof (proj1 (c37_parsing_is_strict s e He)) as W. pose proof He as V. apply ek_from_str_iff in V. destruct V as (V & C & _).
  destruct V as (Vp & Va & Vk). unfold gxpub_try_from in H.
  destruct (prefix_is_public (ek_prefix e)) eqn:Ep; [|discriminate H]. apply is_public_iff in Ep. destruct e as [p a kb]. cbn [ek_prefix ek_attrs key_bytes] in *.
  apply bind_ok in H. destruct H as (k & Hk & H). injection H as <-.
  split; [exact Va|]. exists p. split; [exact Vp|]. split; [exact Ep|]. split; [exact C|].
  unfold gxpub_to_string, gxpub_to_extended_key. cbn [gxpub_attrs g_public_key]. rewrite (R kb k Vk Hk). exact W.
Qed.
(** No text is read both as a private and as a public key, even with unrelated key types. *)
Lemma c134_never_both : forall (K P Q : Type) (T : private_impl K P) (U : public_impl Q) (s : str) (x : gxprv K) (y : gxpub Q),
  gxprv_from_str T s = Ok x -> gxpub_from_str U s = Ok y -> False.
Proof.
  intros K P Q T U s x y Hx Hy. unfold gxprv_from_str, gxpub_from_str in *. apply bind_ok in Hx. destruct Hx as (e & He & Hx). rewrite He in Hy. cbn [bind] in Hy.
  unfold gxprv_try_from in Hx. unfold gxpub_try_from in Hy.
  destruct (prefix_is_private (ek_prefix e)) eqn:E1; [|discriminate Hx]. destruct (prefix_is_public (ek_prefix e)) eqn:E2; [|discriminate Hy].
  apply is_private_iff in E1. apply is_public_iff in E2. rewrite E1 in E2. discriminate E2.
Qed.
Lemma toy_typed : private_typed toy_private.
Proof.
  split; [intros k; apply has_bytes_be|]. intros k. split.
  - apply (has_bytes_app 1 32 [2]); [apply has_bytes_1; reflexivity|apply has_bytes_be].
  - cbn [toy_private prv_public toy_public pub_fingerprint]. unfold default_fingerprint.
    split; [rewrite firstn_length_le; [reflexivity|rewrite ripemd160_length; lia]|apply bytes_ok_firstn, ripemd160_ok].
Qed.
Lemma toy_reads k : k < 2 ^ 256 -> prv_from_bytes toy_private (prv_to_bytes toy_private k) = Ok k.
Proof.
  intros H. cbn [toy_private prv_from_bytes prv_to_bytes]. f_equal. rewrite be_val_be_bytes. apply N.mod_small. exact H.
Qed.
Lemma gxprv_text {K P} (T : private_impl K P) x p : gxprv_to_string T x p = ek_to_string (gxprv_to_extended_key T x p).
Proof. reflexivity. Qed.
Lemma not_read e s : valid_ext e -> In (ek_prefix e) (prv_prefixes ++ pub_prefixes) -> ek_to_string e = Ok s -> xprv_try_from e = Err ECrypto ->
  bind (ek_from_str s) xprv_try_from = Err ECrypto.
Proof. intros V H E X. rewrite (std_round_trip e s V H E). exact X. Qed.
(** Another key type, for which 0 is a key. *)
Example c134_example : private_typed toy_private
  /\ exists s, gxprv_to_string toy_private (mkGXPrv 0 (gxprv_attrs ex_toy)) XPRV = Ok s
     /\ gxprv_from_str toy_private s = Ok (mkGXPrv 0 (gxprv_attrs ex_toy)) /\ xprv_from_str s = Err ECrypto.
Proof.
  split; [apply toy_typed|].
  assert (Va : valid_attrs (gxprv_attrs (mkGXPrv 0 (gxprv_attrs ex_toy)))).
  { split; [reflexivity|]. split; [split; [reflexivity|repeat (constructor; [reflexivity|]); constructor]|]. split; [reflexivity|].
    split; [reflexivity|]. apply Forall_forall. intros b Hb. apply repeat_spec in Hb. subst b. reflexivity. }
  assert (Hp : In XPRV prv_prefixes) by (right; left; reflexivity).
  destruct (c134_private_round_trip N N toy_private (mkGXPrv 0 (gxprv_attrs ex_toy)) XPRV toy_typed Va Hp) as (s & E & _ & _ & _ & R).
  exists s. split; [exact E|]. split; [apply R; apply toy_reads; reflexivity|].
  destruct (in_std_prv XPRV Hp) as [Hs Hc]. unfold xprv_from_str.
  pose proof (gxprv_ext_valid toy_private (mkGXPrv 0 (gxprv_attrs ex_toy)) XPRV toy_typed Va (std_valid XPRV Hs)) as Ve.
  rewrite gxprv_text in E. exact (not_read _ s Ve Hs E eq_refl).
Qed.

(** ** C135 *)
Lemma c135_one_step : forall (K P : Type) (T : private_impl K P) (good : K -> Prop) (x : gxprv K) (c : N),
  derivation_commutes T good -> good (g_private_key x) -> c < 2 ^ 31 ->
  gxpub_derive_child (prv_public T) (gxprv_public_key T x) c = res_map (gxprv_public_key T) (gxprv_derive_child T x c).
Proof.
  intros K P T good x c D G Hc. rewrite gxpub_step, gxprv_step. unfold gxprv_public_key at 1 2. cbn [gxpub_attrs g_public_key].
  assert (Hh : child_is_hardened c = false). { rewrite hardened_iff; [apply N.leb_gt, Hc|]. unfold u32. lia. }
  unfold g_input. rewrite Hh. destruct (depth (gxprv_attrs x) <? 255); [|reflexivity].
  change (gxpub_attrs (gxprv_public_key T x)) with (gxprv_attrs x). change (g_public_key (gxprv_public_key T x)) with (prv_public_key T (g_private_key x)).
  set (I := hmac_sha512 _ _). assert (HI : has_bytes 64 I) by apply hmac_bytes. clearbody I.
  destruct (D (g_private_key x) (firstn 32 I) G (proj1 (halves I HI))) as [E _]. rewrite E.
  destruct (prv_derive_child T (g_private_key x) (firstn 32 I)); reflexivity.
Qed.
Lemma c135_paths : forall (K P : Type) (T : private_impl K P) (good : K -> Prop) (x : gxprv K) (p : list N),
  derivation_commutes T good -> good (g_private_key x) -> Forall (fun c => c < 2 ^ 31) p ->
  gxpub_derive_from_path (prv_public T) (gxprv_public_key T x) p = res_map (gxprv_public_key T) (gxprv_derive_from_path T x p).
Proof.
  intros K P T good x p D G F. rewrite along_gprv, along_gpub. revert x G. induction F as [|c p Hc F IH]; intros x G; [reflexivity|].
  rewrite !along_cons, (c135_one_step K P T good) by assumption. destruct (gxprv_derive_child T x c) as [y|e|] eqn:E; [|reflexivity..]. cbn [res_map bind].
  apply IH. apply gprv_ok in E. destruct E as (_ & I & HI & E & _). exact (proj2 (D (g_private_key x) (firstn 32 I) G (proj1 (halves I HI))) (g_private_key y) E).
Qed.
(** libsecp256k1 satisfies the condition. *)
Lemma c135_libsecp : derivation_commutes libsecp_private (fun k => (0 < k < secp_n)%Z).
Proof.
  intros k t Hk Ht. cbn [libsecp_private prv_public libsecp_public pub_derive_child prv_public_key prv_derive_child]. unfold public_derive_child, private_derive_child.
  destruct (secret_parse t) as [u|] eqn:E; [|split; [reflexivity|intros k' H; discriminate H]]. cbn [or_panic bind].
  apply secret_parse_iff in E. destruct E as [_ E]. split.
  - rewrite private_public by lia. rewrite tweak_agree by lia. destruct (secret_tweak_add k u) as [k'|] eqn:Et; [|reflexivity].
    cbn [option_map ok_or res_map]. apply secret_tweak_range in Et. rewrite private_public by lia. reflexivity.
  - intros k' H. destruct (secret_tweak_add k u) as [k''|] eqn:Et; [|discriminate H]. injection H as <-. apply secret_tweak_range in Et. exact Et.
Qed.
Example c135_example : derivation_commutes toy_private (fun _ => True)
  /\ gxpub_derive_from_path toy_public (gxprv_public_key toy_private ex_toy) [7]
     = res_map (gxprv_public_key toy_private) (gxprv_derive_from_path toy_private ex_toy [7]).
Proof.
  assert (D : derivation_commutes toy_private (fun _ => True)) by (intros k t _ _; split; [reflexivity|auto]). split; [exact D|].
  apply (c135_paths N N toy_private (fun _ => True)); [exact D|exact I|repeat constructor].
Qed.

(** ** C136 *)
Lemma c136_equality : forall (K P : Type) (T : private_impl K P) (x y : gxprv K),
  gxprv_eq T x y = true <-> gxprv_attrs x = gxprv_attrs y.
Proof.
  intros K P T x y. unfold gxprv_eq. cbv zeta. rewrite !andb_true_iff, !bytes_eqb_spec, !N.eqb_eq. split.
  - intros ((((_ & H1) & H2) & H3) & H4). destruct (gxprv_attrs x), (gxprv_attrs y). cbn in *. congruence.
  - intros ->. auto.
Qed.
Lemma c136_same_key_refuted : forall (K P : Type) (T : private_impl K P) (k k' : K), k <> k' ->
  ~ (forall x y : gxprv K, gxprv_eq T x y = true -> g_private_key x = g_private_key y).
Proof.
  intros K P T k k' N H. apply N. apply (H (mkGXPrv k (mkAttrs 0 [] 0 [])) (mkGXPrv k' (mkAttrs 0 [] 0 []))).
  apply c136_equality. reflexivity.
Qed.
Example c136_example : gxprv_eq toy_private (mkGXPrv 1 (gxprv_attrs ex_toy)) (mkGXPrv 2 (gxprv_attrs ex_toy)) = true
  /\ gxprv_eq toy_private ex_toy (mkGXPrv 5 (mkAttrs 254 [1; 2; 3; 4] 8 (repeat 9 32))) = false.
Proof. split; [apply c136_equality; reflexivity|reflexivity]. Qed.

(** ** C137 *)
Lemma along_no_panic {A} (f : A -> N -> R32 A) : (forall x c, f x c <> Panic) -> forall p m, m <> Panic -> along f p m <> Panic.
Proof.
  intros S. induction p as [|c p IH]; intros m H; [exact H|]. change (along f (c :: p) m) with (along f p (bind m (fun k => f k c))).
  apply IH, bind_no_panic; [exact H|]. intros a _. apply S.
Qed.
Lemma c137_no_panics : forall (K P : Type) (T : private_impl K P), private_typed T -> never_panics T ->
  forall (x : gxprv K) (y : gxpub P) (seed : bytes) (p : list N) (s : str) (q : prefix),
  gxprv_new_from_path T seed p <> Panic /\ gxprv_derive_from_path T x p <> Panic /\ gxpub_derive_from_path (prv_public T) y p <> Panic
  /\ gxprv_from_str T s <> Panic /\ gxpub_from_str (prv_public T) s <> Panic
  /\ (valid_prefix q -> valid_attrs (gxprv_attrs x) -> gxprv_to_string T x q <> Panic)
  /\ (valid_prefix q -> valid_attrs (gxpub_attrs y) -> gxpub_to_string (prv_public T) y q <> Panic).
Proof.
  intros K P T B (N1 & N2 & N3 & N4) x y seed p s q.
  assert (S1 : forall x c, gxprv_derive_child T x c <> Panic).
  { intros x' c. rewrite gxprv_step. set (I := hmac_sha512 _ _). assert (HI : has_bytes 64 I) by apply hmac_bytes. clearbody I.
    destruct (depth _ <? 255); [|discriminate]. specialize (N2 (g_private_key x') (firstn 32 I) (proj1 (halves I HI))).
    destruct (prv_derive_child T (g_private_key x') (firstn 32 I)); try discriminate. destruct (N2 eq_refl). }
  assert (S2 : forall y c, gxpub_derive_child (prv_public T) y c <> Panic).
  { intros y' c. rewrite gxpub_step. set (I := hmac_sha512 _ _). assert (HI : has_bytes 64 I) by apply hmac_bytes. clearbody I.
    destruct (child_is_hardened c); [discriminate|]. destruct (depth _ <? 255); [|discriminate].
    specialize (N4 (g_public_key y') (firstn 32 I) (proj1 (halves I HI))).
    destruct (pub_derive_child (prv_public T) (g_public_key y') (firstn 32 I)); try discriminate. destruct (N4 eq_refl). }
  split. { rewrite along_gnew. apply along_no_panic; [exact S1|]. unfold gxprv_new. destruct (negb _); [discriminate|]. cbv zeta.
    pose proof (hmac_bytes bip39_domain_separator seed) as HI. revert HI. generalize (hmac_sha512 bip39_domain_separator seed). intros I HI.
    specialize (N1 (firstn 32 I) (proj1 (halves I HI))). destruct (prv_from_bytes T (firstn 32 I)); try discriminate. destruct (N1 eq_refl). }
  split; [rewrite along_gprv; apply along_no_panic; [exact S1|discriminate]|].
  split; [rewrite along_gpub; apply along_no_panic; [exact S2|discriminate]|].
  split. { unfold gxprv_from_str. apply bind_no_panic; [apply ek_from_str_no_panic|]. intros e E. apply from_str_valid in E. destruct E as (_ & _ & Lk & Bk).
    unfold gxprv_try_from. destruct (prefix_is_private (ek_prefix e)); [|discriminate].
    destruct (key_bytes e) as [|b kb]; [discriminate Lk|]. unfold index. cbn [nth_error N.to_nat or_panic bind skipn].
    destruct (b =? 0); [|discriminate]. apply bind_no_panic; [|discriminate]. apply N1.
    split; [injection Lk as Lk; exact Lk|inversion Bk; assumption]. }
  split. { unfold gxpub_from_str. apply bind_no_panic; [apply ek_from_str_no_panic|]. intros e E. apply from_str_valid in E. destruct E as (_ & _ & Hk).
    unfold gxpub_try_from. destruct (prefix_is_public (ek_prefix e)); [|discriminate]. apply bind_no_panic; [apply N3, Hk|discriminate]. }
  split; intros Hq Ha.
  - destruct (to_string_exists _ (gxprv_ext_valid T x q B Ha Hq)) as (t & E & _). unfold gxprv_to_string. rewrite E. discriminate.
  - destruct (to_string_exists _ (gxpub_ext_valid (prv_public T) y q (proj2 B) Ha Hq)) as (t & E & _). unfold gxpub_to_string. rewrite E. discriminate.
Qed.
(** libsecp256k1's implementation is one that panics: on the tweak 0 and on every tweak from n on. *)
Lemma c137_libsecp_panics : forall (k : Z) (t : bytes), has_bytes 32 t ->
  (prv_derive_child libsecp_private k t = Panic <-> (left_half t = 0 \/ secp_n <= left_half t)%Z).
Proof.
  intros k t Ht. assert (Ft : firstn 32 t = t) by (rewrite <- (proj1 Ht); apply firstn_all).
  cbn [libsecp_private prv_derive_child]. unfold private_derive_child. destruct (usable_dec t) as [U|U].
  - pose proof (proj1 (parse_left t) U) as E. rewrite Ft in E. rewrite E. cbn [or_panic bind]. unfold usable in U. split; [|lia].
    destruct (secret_tweak_add k (left_half t)); intros H; discriminate H.
  - pose proof (proj2 (parse_left t) U) as E. rewrite Ft in E. rewrite E. cbn [or_panic bind]. split; [|reflexivity]. intros _.
    unfold usable, left_half in *. lia.
Qed.
Example c137_example : never_panics toy_private /\ ~ never_panics libsecp_private.
Proof.
  split.
  - repeat split; try discriminate. intros [|b l] _; [discriminate|]. destruct b as [|[[|[]|]|[[]|[]|]|]]; discriminate.
  - intros (_ & H & _). apply (H 1%Z (repeat 0 32)).
    + split; [reflexivity|]. apply Forall_forall. intros b Hb. apply repeat_spec in Hb. subst b. reflexivity.
    + reflexivity.
Qed.

(** ** C138 *)
Lemma c138_seed_lengths_refuted : ~ (forall seed : bytes, bytes_ok seed -> (xprv_new seed = Err ESeedLength <-> ~ bip32_seed seed)).
Proof.
  intros H. assert (B : bytes_ok (repeat 0 24)) by (apply Forall_forall; intros b Hb; apply repeat_spec in Hb; subst b; reflexivity).
  specialize (H (repeat 0 24) B). destruct H as [H _]. apply H; [reflexivity|]. unfold bip32_seed. split; vm_compute; discriminate.
Qed.
(** Which lengths are refused: most of those BIP32 allows, and 128 bytes are taken, which it does not allow. *)
Lemma c138_refused_lengths : forall seed : bytes, bytes_ok seed ->
  (xprv_new seed = Err ESeedLength <-> ~ In (len seed) [16; 32; 64; 128]).
Proof.
  intros seed B. unfold xprv_new, xprv_new_with. destruct (existsb (N.eqb (len seed)) [16; 32; 64; 128]) eqn:E.
  - cbn [negb]. cbv zeta. generalize (hmac_sha512 bip39_domain_separator seed). intros I. split.
    + unfold private_from_bytes. destruct (secret_parse (firstn 32 I)); intros H; discriminate H.
    + intros H. exfalso. apply H. apply existsb_exists in E. destruct E as (m & Hm & E). apply N.eqb_eq in E. rewrite E. exact Hm.
  - cbn [negb]. split; [|reflexivity]. intros _ H. assert (X : existsb (N.eqb (len seed)) [16; 32; 64; 128] = true).
    { apply existsb_exists. exists (len seed). split; [exact H|apply N.eqb_refl]. } rewrite X in E. discriminate E.
Qed.
(** For the lengths that are not refused wrongly the check does what BIP32 says. *)
Lemma c138_seed_lengths_partial : forall seed : bytes, bytes_ok seed ->
  len seed <= 16 \/ len seed = 32 \/ 64 <= len seed < 128 \/ 128 < len seed ->
  (xprv_new seed = Err ESeedLength <-> ~ bip32_seed seed).
Proof.
  intros seed B H. rewrite c138_refused_lengths by exact B. unfold bip32_seed. cbn [In]. lia.
Qed.
Example c138_example : xprv_new (repeat 0 24) = Err ESeedLength /\ bip32_seed (repeat 0 24)
  /\ ~ bip32_seed (repeat 0 128) /\ xprv_new (repeat 0 128) <> Err ESeedLength.
Proof.
  split; [reflexivity|]. split; [split; vm_compute; discriminate|]. split; [intros [_ H]; vm_compute in H; apply H; reflexivity|].
  intros H. apply c138_refused_lengths in H.
  - apply H. vm_compute. auto 6.
  - apply Forall_forall. intros b Hb. apply repeat_spec in Hb. subst b. reflexivity.
Qed.
