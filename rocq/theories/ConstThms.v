(** Proofs that the constants shared by model and specification are those of the standards (restated in
    PropConst.v). *)
From Coq Require Import String Znumtheory ZifyBool ZifyNat ZifyN.
From Verif Require Import Outcome Bytes Str Hash HashLemmas Secp SpecSecp SecpField SecpGroup SecpProofs SecpCount.
From Verif Require Import ModelBip39 SpecBip39 ModelBip32 SpecBip32 SpecHash SpecUnicode SpecConst.
From Verif Require Import Fermat Primes SecpOrder Nfkd Gb18030Data WordData WordLemmas Base58Proofs HashThms UnicodeThms.
Open Scope Z_scope.

(** C141 *)
Lemma c141_parameters : secp_p = sec2_p /\ secp_n = sec2_n /\ prime sec2_p /\ prime sec2_n
  /\ on_curve G /\ private_public_key 1 = G
  /\ (exists b, public_to_bytes (private_public_key 1) = b /\ is_compressed b G /\ digits_val 256 b = sec2_G).
Proof.
  assert (E1 : private_public_key 1 = G) by (vm_compute; reflexivity).
  split; [reflexivity|]. split; [reflexivity|]. split; [exact prime_p|]. split; [exact prime_n|].
  split; [exact G_on|]. split; [exact E1|]. rewrite E1. exists (public_to_bytes G).
  split; [reflexivity|]. split; [|vm_compute; reflexivity].
  eexists _, _, 2%N, _. split; [reflexivity|]. split; [vm_compute; reflexivity|]. split; [reflexivity|].
  split; [repeat constructor|]. split; reflexivity.
Qed.
(** The points form a commutative group of prime order n generated by G: the cofactor is 1. *)
Lemma c141_group :
  (forall P Q, on_curve P -> on_curve Q -> exists R, on_curve R /\ ec_sum P Q R /\ ec_sum Q P R /\ forall R', ec_sum P Q R' -> R' = R)
  /\ (forall P Q R PQ QR S, on_curve P -> on_curve Q -> on_curve R ->
        ec_sum P Q PQ -> ec_sum Q R QR -> (ec_sum PQ R S <-> ec_sum P QR S))
  /\ (forall P, on_curve P -> exists Q, on_curve Q /\ ec_sum P Q Infinity)
  /\ (forall P, on_curve P <-> exists k, 0 <= k < sec2_n /\ is_public_point k P)
  /\ (forall k, 0 <= k -> (is_public_point k Infinity <-> (sec2_n | k)))
  /\ (forall j k P, 0 <= j < sec2_n -> 0 <= k < sec2_n -> is_public_point j P -> is_public_point k P -> j = k).
Proof.
  change sec2_n with secp_n. split; [|split; [|split; [|split; [|split]]]].
  - intros P Q HP HQ. exists (ec_add P Q). split; [apply ec_add_on; assumption|].
    split; [apply ec_add_sum; assumption|]. split; [rewrite ec_add_comm by assumption; apply ec_add_sum; assumption|].
    intros R'. apply ec_sum_iff; assumption.
  - intros P Q R PQ QR S HP HQ HR H1 H2. apply ec_sum_iff in H1; try assumption. apply ec_sum_iff in H2; try assumption.
    subst PQ QR. rewrite !ec_sum_iff by (try apply ec_add_on; assumption). rewrite ec_add_assoc by assumption. tauto.
  - intros P HP. exists (ec_neg P). assert (on_curve (ec_neg P)) by (apply ec_neg_on; assumption).
    split; [assumption|]. apply ec_sum_iff; [assumption|assumption|]. symmetry. apply ec_add_neg, HP.
  - intros P. split.
    + intros HP. destruct (every_point P HP) as (k & Hk & E). exists k. split; [exact Hk|].
      apply is_public_point_iff. split; [apply Hk|exact E].
    + intros (k & _ & H). apply is_public_point_iff in H. destruct H as [_ ->]. apply kG_on.
  - intros k Hk. rewrite is_public_point_iff. split.
    + intros [_ E]. apply kG_inf; [exact Hk|symmetry; exact E].
    + intros [q ->]. split; [exact Hk|]. symmetry. apply kG_mult.
      destruct (Z.le_gt_cases 0 q) as [|B]; [assumption|exfalso]. clear -B Hk. unfold secp_n in Hk. lia.
  - intros j k P Hj Hk H1 H2. apply is_public_point_iff in H1. apply is_public_point_iff in H2.
    destruct H1 as [_ E1], H2 as [_ E2]. apply kG_inj; [exact Hj|exact Hk|]. rewrite <- E1. exact E2.
Qed.
Example c141_example :
  is_public_point 2 (Point 0xc6047f9441ed7d6d3045406e95c07cd85c778e4b8cef3ca7abac09b95c709ee5
                           0x1ae168fea63dc339a3c58419466ceaeef7f632653266d0e1236431a950cfe52a)
  /\ ~ on_curve (Point 5 0) /\ ~ is_public_point 2 Infinity.
Proof.
  split; [|split].
  - replace (Point _ _) with (public_of_secret 2) by (vm_compute; reflexivity). apply public_of_secret_ok. easy.
  - intros (_ & _ & [q H]). clear -H. unfold secp_p in H. lia.
  - intros H. apply is_public_point_iff in H. destruct H as [_ H].
    destruct (kG_finite 2 (conj eq_refl eq_refl)) as (x & y & E). rewrite E in H. discriminate H.
Qed.

(** C142 *)
Lemma checksum_of (ws : list str) (d : N) :
  forallb (fun c => (c <? 0xD800) || (0xDFFF <? c) && (c <? 0x110000))%N%bool (flat_map (fun w => w ++ [10%N]) ws) = true ->
  (len (utf8 (flat_map (fun w => w ++ [10%N]) ws)) <? 2 ^ 61)%N = true ->
  digits_val 256 (sha256 (utf8 (flat_map (fun w => w ++ [10%N]) ws))) = d -> has_checksum ws d.
Proof.
  set (t := flat_map _ ws). intros H1 H2 H3.
  assert (S : Forall is_scalar t).
  { apply Forall_forall. intros c Hc. rewrite forallb_forall in H1. specialize (H1 c Hc). unfold is_scalar. lia. }
  unfold has_checksum. fold t. clearbody t. exists (utf8 t), (sha256 (utf8 t)). pose proof (proj2 (c95_utf8 t _ S) eq_refl) as U.
  split; [exact U|]. split; [|exact H3].
  apply (c90_sha2 (utf8 t) _); [apply U|apply N.ltb_lt; exact H2|reflexivity].
Qed.
Lemma no_newline l : Forall (fun w => ~ In 10%N w) (words l).
Proof.
  apply Forall_forall. intros w Hw H.
  assert (B : forallb (fun w => forallb (fun c => negb (c =? 10)%N) w) (words l) = true) by (destruct l; vm_compute; reflexivity).
  rewrite forallb_forall in B. specialize (B w Hw). rewrite forallb_forall in B. specialize (B _ H). discriminate B.
Qed.
Lemma line_split (v w : str) (s t : str) : ~ In 10%N v -> ~ In 10%N w -> v ++ 10%N :: s = w ++ 10%N :: t -> v = w /\ s = t.
Proof.
  revert w. induction v as [|c v IH]; intros [|c' w] Hv Hw E; cbn in *.
  - injection E as ->. split; reflexivity.
  - injection E as <- _. exfalso. apply Hw. left; reflexivity.
  - injection E as -> _. exfalso. apply Hv. left; reflexivity.
  - injection E as -> E. destruct (IH w) as [-> ->]; try tauto.
Qed.
Lemma lines_inj (vs ws : list str) : Forall (fun w => ~ In 10%N w) vs -> Forall (fun w => ~ In 10%N w) ws ->
  flat_map (fun w => w ++ [10%N]) vs = flat_map (fun w => w ++ [10%N]) ws -> vs = ws.
Proof.
  revert ws. induction vs as [|v vs IH]; intros [|w ws] Hv Hw E.
  - reflexivity.
  - cbn in E. destruct w; discriminate E.
  - cbn in E. destruct v; discriminate E.
  - apply Forall_cons_iff in Hv. apply Forall_cons_iff in Hw. cbn [flat_map] in E. rewrite <- !app_assoc in E. cbn [app] in E.
    destruct (line_split _ _ _ _ (proj1 Hv) (proj1 Hw) E) as [-> E']. rewrite (IH ws (proj2 Hv) (proj2 Hw) E'). reflexivity.
Qed.
Lemma c142_checksums : forall l : language,
  has_checksum (wordlist l) (list_checksum l) /\ has_checksum (bip39_list l) (list_checksum l).
Proof.
  intros l. rewrite (wordlist_words l), (bip39_list_words l). enough (H : has_checksum (words l) (list_checksum l)) by (split; exact H).
  destruct l; (apply checksum_of; [vm_compute; reflexivity|vm_compute; reflexivity|vm_compute; reflexivity]).
Qed.
(** No list with other words has the checksum, unless SHA-256 has a collision. *)
Lemma c142_pins : forall (l : language) (ws : list str), has_checksum ws (list_checksum l) ->
  Forall (fun w => ~ In 10%N w) ws ->
  ws = wordlist l \/ exists a b d, a <> b /\ is_sha2 fips_sha256 a d /\ is_sha2 fips_sha256 b d.
Proof.
  intros l ws (a & d & Ua & Da & Ea) N1. destruct (proj1 (c142_checksums l)) as (b & d' & Ub & Db & Eb).
  assert (N2 : Forall (fun w => ~ In 10%N w) (wordlist l)) by (rewrite (wordlist_words l); apply no_newline).
  revert Ea Eb Ub N2. generalize (wordlist l) as vs, (list_checksum l). intros vs c Ea Eb Ub N2.
  assert (d = d') as <-.
  { destruct Da as (? & ? & ? & _ & _ & _ & _ & [L1 B1] & _), Db as (? & ? & ? & _ & _ & _ & _ & [L2 B2] & _).
    apply (digits_val_inj 256); [exact B1|exact B2|rewrite L1, L2; reflexivity|rewrite Ea, Eb; reflexivity]. }
  destruct (list_eq_dec N.eq_dec a b) as [<-|D]; [left|right; exists a, b, d; split; [exact D|split; assumption]].
  apply lines_inj; [exact N1|exact N2|]. eapply c95_decodable; eassumption.
Qed.
Definition gb_text : bytes := flat_map (fun e => [fst (snd e); snd (snd e); 10%N]) gb_table.
Lemma gb_words : map (fun e => [fst e]) gb_table = words ChineseSimplified.
Proof. vm_compute. reflexivity. Qed.
Lemma gb_data : forallb (fun b => b <? 256)%N gb_text = true /\ (len gb_text <? 2 ^ 61)%N = true
  /\ digits_val 256 (sha256 gb_text) = gb18030_checksum /\ forallb (fun e => negb (fst e <? 128)%N) gb_table = true.
Proof.
  split; [vm_compute; reflexivity|]. split; [vm_compute; reflexivity|]. split; vm_compute; reflexivity.
Qed.
Lemma assocN_nodup {A} c (l : list (N * A)) v : NoDup (map fst l) -> In (c, v) l -> assocN c l = Some v.
Proof.
  induction l as [|[k u] l IH]; cbn [map assocN fst]; intros D H; [destruct H|]. apply NoDup_cons_iff in D. destruct H as [H|H].
  - injection H as -> ->. rewrite N.eqb_refl. reflexivity.
  - destruct (N.eqb_spec c k) as [->|]; [|apply IH; [apply D|exact H]]. exfalso. apply (proj1 D). apply (in_map fst) in H. exact H.
Qed.
Lemma gb_entry c a b : In (c, (a, b)) gb_table -> gb18030_char c = Some [a; b].
Proof.
  intros H. destruct gb_data as (_ & _ & _ & Hb). rewrite forallb_forall in Hb. specialize (Hb _ H).
  unfold gb18030_char. cbn [fst] in Hb. destruct (c <? 128)%N; [discriminate Hb|]. rewrite (assocN_nodup c gb_table (a, b)); [reflexivity| |exact H].
  apply (NoDup_map_inv (fun c => [c])). rewrite map_map. rewrite gb_words. apply words_nodup.
Qed.
Lemma gb_lines l : (forall e, In e l -> In e gb_table) ->
  gb18030 (flat_map (fun w => w ++ [10%N]) (map (fun e => [fst e]) l))
  = Some (flat_map (fun e => [fst (snd e); snd (snd e); 10%N]) l).
Proof.
  induction l as [|[c [a b]] l IH]; intros Hl; [reflexivity|]. cbn [map flat_map app fst snd]. cbn [gb18030].
  rewrite (gb_entry c a b) by (apply Hl; left; reflexivity). change (gb18030_char 10) with (Some [10%N]).
  rewrite IH by (intros e He; apply Hl; right; exact He). reflexivity.
Qed.
Lemma gb_list : gb18030 (flat_map (fun w => w ++ [10%N]) (words ChineseSimplified)) = Some gb_text.
Proof. rewrite <- gb_words. apply gb_lines. intros e H. exact H. Qed.
(** The bytes of Chinese phrases: the list in GB18030 has the checksum that a conversion by another program
    gives. *)
Lemma c142_gb18030 : exists text digest, gb18030 (flat_map (fun w => w ++ [10%N]) (wordlist ChineseSimplified)) = Some text
  /\ is_sha2 fips_sha256 text digest /\ digits_val 256 digest = gb18030_checksum.
Proof.
  rewrite (wordlist_words ChineseSimplified). pose proof gb_list as H1. destruct gb_data as (H2 & H3 & H4 & _).
  set (g := gb_text) in *. clearbody g.
  exists g, (sha256 g). split; [exact H1|]. split; [|exact H4].
  apply (c90_sha2 g _); [|apply N.ltb_lt; exact H3|reflexivity].
  apply Forall_forall. intros b Hb. rewrite forallb_forall in H2. apply N.ltb_lt, H2, Hb.
Qed.
Example c142_example : has_checksum [lit "abc"] 0xedeaaff3f1774ad2888673770c6d64097e391bc362d7d6fb34982ddf0efd18cb.
Proof.
  apply checksum_of; vm_compute; reflexivity.
Qed.
