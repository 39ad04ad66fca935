(** Proofs that the tables of Unicode in the model are those of the standard (restated in PropTables.v). *)
From Coq Require Import String Sorted Uint63 ZifyBool ZifyNat ZifyN.
From Verif Require Import Outcome Bytes Str Hash NfkdData Nfkd SpecBip32 SpecHash SpecUnicode SpecConst SpecTables.
From Verif Require Import NfkdLemmas Base58Proofs HashThms UnicodeThms ConstThms FastSha256 FastSha256Proofs ConstLangsThms.
Open Scope N_scope.

Fixpoint increasing (l : list N) : bool :=
  match l with
  | a :: (b :: _) as l' => (a <? b) && increasing l'
  | _ => true
  end.
Lemma increasing_sorted l : increasing l = true -> StronglySorted N.lt l.
Proof.
  intros H. apply Sorted_StronglySorted; [intros x y z; apply N.lt_trans|].
  induction l as [|a [|b l] IH]; [constructor|constructor; constructor|].
  apply andb_prop in H. destruct H as [H1 H2]. constructor; [apply IH, H2|constructor; apply N.ltb_lt, H1].
Qed.
Lemma sorted_nodup l : StronglySorted N.lt l -> NoDup l.
Proof.
  induction 1 as [|a l H IH F]; [constructor|]. constructor; [|exact IH]. intros K. rewrite Forall_forall in F. specialize (F a K). lia.
Qed.
Lemma sorted_eq (a b : list N) : StronglySorted N.lt a -> StronglySorted N.lt b -> (forall c, In c a <-> In c b) -> a = b.
Proof.
  revert b. induction a as [|x a IH]; intros b Ha Hb E.
  - destruct b as [|y b]; [reflexivity|]. exfalso. apply (proj2 (E y)). left; reflexivity.
  - destruct b as [|y b]; [exfalso; apply (proj1 (E x)); left; reflexivity|].
    apply StronglySorted_inv in Ha. destruct Ha as [Ha Fa]. apply StronglySorted_inv in Hb. destruct Hb as [Hb Fb].
    rewrite Forall_forall in Fa, Fb.
    assert (x = y) as <-.
    { destruct (proj1 (E x) (or_introl eq_refl)) as [->|Hx]; [reflexivity|].
      destruct (proj2 (E y) (or_introl eq_refl)) as [->|Hy]; [reflexivity|]. specialize (Fa _ Hy). specialize (Fb _ Hx). lia. }
    f_equal. apply IH; [exact Ha|exact Hb|]. intros c. split; intros Hc.
    + destruct (proj1 (E c) (or_intror Hc)) as [<-|K]; [|exact K]. specialize (Fa _ Hc). lia.
    + destruct (proj2 (E c) (or_intror Hc)) as [<-|K]; [|exact K]. specialize (Fb _ Hc). lia.
Qed.

(** C146 *)
Definition dec_chars : list N := map fst decomp_table.
Definition dec_lines : list str := map (fun e => fst e :: snd e) decomp_table.
Lemma dec_data : increasing dec_chars = true
  /\ forallb (fun e => negb (is_hangul (fst e)) && negb (str_eqb (snd e) [fst e]) && forallb (fun c => negb (c =? 10)) (fst e :: snd e)) decomp_table = true
  /\ forallb (fun c => (c <? 0xD800) || (0xDFFF <? c) && (c <? 0x110000))%bool (lines dec_lines) = true
  /\ (len (utf8 (lines dec_lines)) <? 2 ^ 61) = true.
Proof. split; [|split; [|split]]; vm_compute; reflexivity. Qed.
Lemma dec_sum : gsha256 (utf8 (lines dec_lines)) = GSt 0x23a6c54b 0xb5cf6857 0x0f79a8b6 0x9aa1209e 0xf18ae070 0x64519741 0x28b75773 0x73d3ca86.
Proof. vm_cast_no_check (eq_refl (gsha256 (utf8 (lines dec_lines)))). Qed.
Lemma dec_checksum : has_checksum dec_lines decompositions_checksum.
Proof.
  destruct dec_data as (_ & _ & H1 & H2). apply (fast_checksum _ _ _ H1 H2 dec_sum). vm_compute. reflexivity.
Qed.
Lemma no_syllable c : is_hangul c = false <-> forall l v t, ~ is_syllable c l v t.
Proof.
  unfold is_hangul. split.
  - intros H l v t (Hl & Hv & Ht & E). nia.
  - intros H. destruct ((0xAC00 <=? c) && (c <? 0xAC00 + 11172)) eqn:E; [exfalso|reflexivity].
    apply andb_prop in E. destruct E as [E1 E2]. apply N.leb_le in E1. apply N.ltb_lt in E2.
    set (i := c - 0xAC00). apply (H (i / 28 / 21) (i / 28 mod 21) (i mod 28)).
    pose proof (N.div_mod i 28 ltac:(discriminate)) as D1. pose proof (N.div_mod (i / 28) 21 ltac:(discriminate)) as D2.
    pose proof (N.mod_lt i 28 ltac:(discriminate)) as M1. pose proof (N.mod_lt (i / 28) 21 ltac:(discriminate)) as M2.
    split; [|split; [exact M2|split; [exact M1|]]].
    + apply N.div_lt_upper_bound; [discriminate|]. apply N.div_lt_upper_bound; [discriminate|]. lia.
    + rewrite (N.mul_comm (i / 28 / 21)), <- D2. rewrite (N.mul_comm (i / 28)), <- N.add_assoc, <- D1. lia.
Qed.
Lemma dec_entry c d : In (c, d) decomp_table -> decompose_char c = d /\ is_hangul c = false /\ d <> [c] /\ ~ In 10 (c :: d).
Proof.
  intros H. destruct dec_data as (S & B & _ & _). rewrite forallb_forall in B. specialize (B _ H). cbn [fst snd] in B.
  apply andb_prop in B. destruct B as [B B3]. apply andb_prop in B. destruct B as [B1 B2].
  assert (Hh : is_hangul c = false) by (destruct (is_hangul c); [discriminate B1|reflexivity]).
  unfold decompose_char. rewrite Hh. rewrite (assocN_nodup c decomp_table d (sorted_nodup _ (increasing_sorted _ S)) H).
  split; [reflexivity|]. split; [reflexivity|]. split.
  - intros E. rewrite E in B2. cbn in B2; rewrite N.eqb_refl in B2. discriminate B2.
  - intros K. rewrite forallb_forall in B3. specialize (B3 _ K). discriminate B3.
Qed.
Lemma c146_decompositions : has_decompositions decompose_char decompositions_checksum.
Proof.
  exists dec_chars. destruct dec_data as (S & _). split; [apply increasing_sorted; exact S|]. split; [|split].
  - intros c. rewrite <- no_syllable. unfold dec_chars. rewrite in_map_iff. split.
    + intros ([c' d] & <- & H). destruct (dec_entry c' d H) as (E & Hh & Hd & _). cbn [fst]. rewrite E. split; [exact Hd|exact Hh].
    + intros [H1 H2]. unfold decompose_char in H1. rewrite H2 in H1. destruct (assocN c decomp_table) as [d|] eqn:E; [|contradiction H1; reflexivity].
      exists (c, d). split; [reflexivity|]. apply assocN_in. exact E.
  - intros c H. unfold dec_chars in H. apply in_map_iff in H. destruct H as ([c' d] & <- & H). cbn [fst].
    destruct (dec_entry c' d H) as (-> & _ & _ & K). exact K.
  - replace (map (fun c => c :: decompose_char c) dec_chars) with dec_lines; [exact dec_checksum|].
    unfold dec_lines, dec_chars. rewrite map_map. apply map_ext_in. intros [c d] H. cbn [fst snd]. rewrite (proj1 (dec_entry c d H)). reflexivity.
Qed.

Definition ccc_chars : list N :=
  flat_map (fun r => map (fun i => fst (fst r) + N.of_nat i) (seq 0 (N.to_nat (snd (fst r) - fst (fst r) + 1)))) ccc_table.
Definition ccc_lines : list str := map (fun c => [c; 256 + ccc c]) ccc_chars.
Lemma ccc_data : increasing ccc_chars = true /\ forallb (fun c => negb (ccc c =? 0) && negb (c =? 10)) ccc_chars = true
  /\ forallb (fun c => (c <? 0xD800) || (0xDFFF <? c) && (c <? 0x110000))%bool (lines ccc_lines) = true
  /\ (len (utf8 (lines ccc_lines)) <? 2 ^ 61) = true.
Proof. split; [|split; [|split]]; vm_compute; reflexivity. Qed.
Lemma ccc_sum : gsha256 (utf8 (lines ccc_lines)) = GSt 0xa02d4b4e 0x3258b466 0xc72815ce 0xee9497f0 0x2ad5c2ea 0x8fa3d6ce 0x84f8500e 0x1bac4d80.
Proof. vm_cast_no_check (eq_refl (gsha256 (utf8 (lines ccc_lines)))). Qed.
Lemma c146_classes : has_classes ccc classes_checksum.
Proof.
  exists ccc_chars. destruct ccc_data as (S & B & H1 & H2). rewrite forallb_forall in B.
  split; [apply increasing_sorted; exact S|]. split; [|split].
  - intros c. split.
    + intros H E. specialize (B _ H). rewrite E in B. discriminate B.
    + intros H. unfold ccc in H. destruct (find _ ccc_table) as [r|] eqn:F; [|contradiction H; reflexivity].
      apply find_some in F. destruct F as [F1 F2]. apply andb_prop in F2. destruct F2 as [F2 F3].
      apply in_flat_map. exists r. split; [exact F1|]. apply in_map_iff. exists (N.to_nat (c - fst (fst r))).
      split; [lia|]. apply in_seq. lia.
  - intros H. specialize (B _ H). rewrite andb_false_r in B. discriminate B.
  - apply (fast_checksum _ _ _ H1 H2 ccc_sum). vm_compute. reflexivity.
Qed.

Lemma checksum_inj vs ws d : has_checksum vs d -> has_checksum ws d ->
  Forall (fun w => ~ In 10 w) vs -> Forall (fun w => ~ In 10 w) ws ->
  vs = ws \/ exists a b d, a <> b /\ is_sha2 fips_sha256 a d /\ is_sha2 fips_sha256 b d.
Proof.
  intros (a & x & Ua & Da & Ea) (b & y & Ub & Db & Eb) N1 N2.
  assert (x = y) as <-.
  { destruct Da as (? & ? & ? & _ & _ & _ & _ & [L1 B1] & _), Db as (? & ? & ? & _ & _ & _ & _ & [L2 B2] & _).
    apply (digits_val_inj 256); [exact B1|exact B2|rewrite L1, L2; reflexivity|rewrite Ea, Eb; reflexivity]. }
  destruct (list_eq_dec N.eq_dec a b) as [<-|D]; [left|right; exists a, b, x; split; [exact D|split; assumption]].
  apply lines_inj; [exact N1|exact N2|]. eapply c95_decodable; eassumption.
Qed.
Lemma newline_lines (g : N -> str) cs : (forall c, In c cs -> ~ In 10 (g c)) -> Forall (fun w => ~ In 10 w) (map g cs).
Proof. intros H. apply Forall_forall. intros w Hw. apply in_map_iff in Hw. destruct Hw as (c & <- & Hc). apply H, Hc. Qed.
Lemma map_agree {A} (g h : N -> A) a b (hd : A -> N) : (forall c, hd (g c) = c) -> (forall c, hd (h c) = c) ->
  map g a = map h b -> a = b /\ forall c, In c a -> g c = h c.
Proof.
  intros Hg Hh E. assert (a = b) as <-.
  { rewrite <- (map_id a), <- (map_id b). rewrite <- (map_ext _ _ Hg), <- (map_ext _ _ Hh).
    rewrite <- (map_map g hd), <- (map_map h hd), E. reflexivity. }
  split; [reflexivity|]. clear Hg Hh. induction a as [|x a IH]; [intros c []|]. cbn [map] in E.
  pose proof (f_equal (fun l => match l with y :: _ => y | [] => g x end) E) as E1. cbn in E1.
  pose proof (f_equal (@tl A) E) as E2. cbn [tl] in E2. intros c [<-|Hc]; [exact E1|exact (IH E2 c Hc)].
Qed.
(** No other decompositions or classes have the checksums, unless SHA-256 has a collision. *)
Lemma c146_pins_decompositions : forall f : N -> str, has_decompositions f decompositions_checksum ->
  (forall c, (forall l v t, ~ is_syllable c l v t) -> f c = decompose_char c)
  \/ exists a b d, a <> b /\ is_sha2 fips_sha256 a d /\ is_sha2 fips_sha256 b d.
Proof.
  intros f (cs & _ & I1 & N1 & H1). destruct c146_decompositions as (ds & _ & I2 & N2 & H2).
  destruct (checksum_inj _ _ _ H1 H2 (newline_lines _ _ N1) (newline_lines _ _ N2)) as [E|E]; [left|right; exact E].
  destruct (map_agree (fun c => c :: f c) (fun c => c :: decompose_char c) cs ds (hd 0) (fun c => eq_refl) (fun c => eq_refl) E) as [<- A].
  intros c Hc. destruct (list_eq_dec N.eq_dec (f c) [c]) as [F|F], (list_eq_dec N.eq_dec (decompose_char c) [c]) as [G|G].
  - rewrite F, G. reflexivity.
  - exact (f_equal (@tl N) (A c (proj2 (I2 c) (conj G Hc)))).
  - exact (f_equal (@tl N) (A c (proj2 (I1 c) (conj F Hc)))).
  - exact (f_equal (@tl N) (A c (proj2 (I1 c) (conj F Hc)))).
Qed.
Lemma c146_pins_classes : forall f : N -> N, has_classes f classes_checksum -> (forall c, f c = ccc c)
  \/ exists a b d, a <> b /\ is_sha2 fips_sha256 a d /\ is_sha2 fips_sha256 b d.
Proof.
  assert (NL : forall (f : N -> N) cs, ~ In 10 cs -> Forall (fun w => ~ In 10 w) (map (fun c => [c; 256 + f c]) cs)).
  { intros f cs H. apply newline_lines. intros c Hc [->|[K|[]]]; [exact (H Hc)|lia]. }
  intros f (cs & _ & I1 & N1 & H1). destruct c146_classes as (ds & _ & I2 & N2 & H2).
  destruct (checksum_inj _ _ _ H1 H2 (NL f _ N1) (NL ccc _ N2)) as [E|E]; [left|right; exact E].
  destruct (map_agree (fun c => [c; 256 + f c]) (fun c => [c; 256 + ccc c]) cs ds (hd 0) (fun c => eq_refl) (fun c => eq_refl) E) as [<- A].
  assert (A' : forall c, In c cs -> f c = ccc c).
  { intros c Hc. pose proof (f_equal (fun l => nth 1 l 0) (A c Hc)) as K. cbn [nth] in K. lia. }
  intros c. destruct (N.eq_dec (f c) 0) as [F|F], (N.eq_dec (ccc c) 0) as [G|G].
  - rewrite F, G. reflexivity.
  - apply A', I2, G.
  - apply A', I1, F.
  - apply A', I1, F.
Qed.
(** The ligature fi, the full-width A and the circumflex below are among the lines of the texts. *)
Example c146_example : decompose_char 0xFB01 = lit "fi" /\ decompose_char 0xFF21 = lit "A" /\ decompose_char 0xAC01 = [0x1100; 0x1161; 0x11A8]
  /\ ccc 0x301 = 230 /\ ccc 0x323 = 220 /\ ccc 65 = 0 /\ ~ has_classes (fun _ => 1) classes_checksum.
Proof.
  split; [vm_compute; reflexivity|]. split; [vm_compute; reflexivity|]. split; [vm_compute; reflexivity|]. split; [vm_compute; reflexivity|].
  split; [vm_compute; reflexivity|]. split; [vm_compute; reflexivity|].
  intros (cs & _ & I & K & _). apply K, I. discriminate.
Qed.
