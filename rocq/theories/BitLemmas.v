(** The bit packer and unpacker of the code compute on bit strings. *)
From Verif Require Import Outcome Bytes ModelBip39 SpecBip39.
From Coq Require Import ZifyBool ZifyNat ZifyN.
Open Scope N_scope.

Lemma pow2_nz k : 2 ^ k <> 0.
Proof. apply N.pow_nonzero. discriminate. Qed.

Lemma testbit_small y k i : y < 2 ^ k -> k <= i -> N.testbit y i = false.
Proof.
  intros Hy Hi. rewrite N.testbit_eqb. rewrite N.div_small; [reflexivity|].
  eapply N.lt_le_trans; [exact Hy|]. apply N.pow_le_mono_r; [discriminate|exact Hi].
Qed.

Lemma lor_add x y k : y < 2 ^ k -> N.lor (x * 2 ^ k) y = x * 2 ^ k + y.
Proof.
  intros Hy.
  assert (Hl : N.land (x * 2 ^ k) y = 0).
  { apply N.bits_inj. intros i. rewrite N.land_spec, N.bits_0.
    destruct (N.lt_ge_cases i k) as [Hi|Hi].
    - rewrite N.mul_pow2_bits_low by exact Hi. reflexivity.
    - rewrite (testbit_small y k i Hy Hi). apply andb_false_r. }
  rewrite N.add_nocarry_lxor by exact Hl. rewrite N.lxor_lor by exact Hl. reflexivity.
Qed.

Lemma pow_split a b : b <= a -> 2 ^ a = 2 ^ (a - b) * 2 ^ b.
Proof. intros H. rewrite <- N.pow_add_r. f_equal. lia. Qed.

Lemma len_app {A} (a b : list A) : len (a ++ b) = len a + len b.
Proof. unfold len. rewrite app_length. lia. Qed.

Lemma len_bits_of w n : len (bits_of w n) = N.of_nat w.
Proof. unfold len. rewrite bits_of_length. reflexivity. Qed.

(** A bit string [r] held left aligned in a [w]-bit register. *)
Definition left_aligned (w : N) (r : list bool) (x : N) : Prop := len r <= w /\ x = val_of_bits r * 2 ^ (w - len r).

Lemma left_aligned_lt w r x : left_aligned w r x -> x < 2 ^ w.
Proof.
  intros [Hl ->]. rewrite (pow_split w (w - len r)) by lia. replace (w - (w - len r)) with (len r) by lia.
  pose proof (val_of_bits_lt r). pose proof (pow2_nz (w - len r)). nia.
Qed.

(** Appending [k] more bits of value [v] at the right place. *)
Lemma left_aligned_append w r x s :
  left_aligned w r x -> len r + len s <= w ->
  left_aligned w (r ++ s) (N.lor x (val_of_bits s * 2 ^ (w - (len r + len s)))).
Proof.
  intros [Hl ->] Hs. split; [rewrite len_app; exact Hs|].
  assert (E1 : 2 ^ (w - len r) = 2 ^ len s * 2 ^ (w - (len r + len s))).
  { rewrite <- N.pow_add_r. f_equal. lia. }
  rewrite lor_add.
  - rewrite len_app, val_of_bits_app, N.mul_add_distr_r, <- N.mul_assoc, <- E1. reflexivity.
  - rewrite E1. pose proof (val_of_bits_lt s). pose proof (pow2_nz (w - (len r + len s))). nia.
Qed.

(** Taking bits from the left. *)
Lemma left_aligned_top w a r x :
  left_aligned w (a ++ r) x -> N.shiftr x (w - len a) = val_of_bits a.
Proof.
  intros [Hl ->]. rewrite len_app in *. rewrite N.shiftr_div_pow2, val_of_bits_app.
  rewrite (pow_split (w - len a) (len r)) by lia.
  replace (w - len a - len r) with (w - (len a + len r)) by lia.
  rewrite N.mul_comm, N.div_mul_cancel_l by apply pow2_nz.
  rewrite N.add_comm, N.div_add by apply pow2_nz. rewrite N.div_small by apply val_of_bits_lt. lia.
Qed.

Lemma left_aligned_drop w a r x :
  left_aligned w (a ++ r) x -> left_aligned w r (wrap w (N.shiftl x (len a))).
Proof.
  intros [Hl ->]. rewrite len_app in *. split; [lia|].
  unfold wrap. rewrite N.shiftl_mul_pow2, val_of_bits_app, <- N.mul_assoc, <- N.pow_add_r.
  replace (w - (len a + len r) + len a) with (w - len r) by lia.
  rewrite N.mul_add_distr_r, <- N.mul_assoc, <- N.pow_add_r.
  replace (len r + (w - len r)) with w by lia.
  rewrite N.add_comm, N.mod_add by apply pow2_nz. apply N.mod_small.
  apply (left_aligned_lt w r). split; [lia|reflexivity].
Qed.

Lemma len_le_split (r : list bool) k : k <= len r -> exists a s, r = a ++ s /\ len a = k.
Proof.
  intros H. exists (firstn (N.to_nat k) r), (skipn (N.to_nat k) r).
  split; [symmetry; apply firstn_skipn|]. unfold len in *. rewrite firstn_length. lia.
Qed.

(** ** BitWriter *)

(** [w] holds exactly the bits [b]. *)
Definition bw_holds (w : bit_writer) (b : list bool) : Prop :=
  exists r, b = bits_of_bytes (bw_inner w) ++ r /\ bytes_ok (bw_inner w) /\ len r = bw_offset w
         /\ bw_offset w < 8 /\ left_aligned 32 r (bw_remainder w).

Lemma bw_holds_new : bw_holds bw_new [].
Proof. exists []. cbn. split; [reflexivity|]. split; [constructor|]. split; [reflexivity|]. split; [lia|]. split; cbn; lia. Qed.

Lemma bw_drain_holds fuel inner r off rem :
  bytes_ok inner -> len r = off -> off <= N.of_nat fuel -> left_aligned 32 r rem ->
  exists w, bw_drain fuel (BitWriter off rem inner) = Ok w /\ bw_holds w (bits_of_bytes inner ++ r).
Proof.
  revert inner r off rem. induction fuel as [|fuel IH]; intros inner r off rem Hi Hr Hf Ha;
    cbn [bw_drain bw_offset bw_remainder bw_inner].
  - destruct (N.leb_spec 8 off) as [H8|H8]; [lia|].
    eexists; split; [reflexivity|]. exists r. cbn. auto.
  - destruct (N.leb_spec 8 off) as [H8|H8].
    + destruct (len_le_split r 8) as (a & s & -> & Hla); [lia|].
      unfold shr_chk, shl_chk, sub_chk.
      change (24 <? 32) with true. change (8 <? 32) with true. cbn [bind].
      assert (E : (8 <=? off) = true) by lia. rewrite E. cbn [bind].
      assert (Ht : N.shiftr rem 24 = val_of_bits a).
      { change 24 with (32 - 8). rewrite <- Hla. eapply left_aligned_top. exact Ha. }
      assert (Hd : left_aligned 32 s (wrap 32 (N.shiftl rem 8))).
      { rewrite <- Hla. eapply left_aligned_drop. exact Ha. }
      assert (Hv : val_of_bits a < 256).
      { pose proof (val_of_bits_lt a) as H. rewrite Hla in H. exact H. }
      rewrite Ht. unfold wrap at 2. rewrite (N.mod_small (val_of_bits a)) by exact Hv.
      rewrite len_app in Hr.
      destruct (IH (inner ++ [val_of_bits a]) s (off - 8) (wrap 32 (N.shiftl rem 8))) as (w & Hw & Hh).
      * apply bytes_ok_app. split; [exact Hi|]. constructor; [exact Hv|constructor].
      * lia.
      * lia.
      * exact Hd.
      * exists w. split; [exact Hw|].
        rewrite bits_of_bytes_app, <- app_assoc in Hh. unfold bits_of_bytes at 2 in Hh.
        cbn [flat_map] in Hh. rewrite app_nil_r in Hh.
        replace (bits_of 8 (val_of_bits a)) with a in Hh; [exact Hh|].
        assert (E8 : 8%nat = length a) by (unfold len in Hla; lia).
        rewrite E8. symmetry. apply bits_of_val_of_bits.
    + eexists; split; [reflexivity|]. exists r. cbn. auto.
Qed.

Lemma bw_push_holds w b x : bw_holds w b -> x < 2048 ->
  exists w', bw_push w x = Ok w' /\ bw_holds w' (b ++ bits_of 11 x).
Proof.
  intros (r & -> & Hi & Hr & Ho & Ha) Hx. unfold bw_push.
  unfold sub_chk, shl_chk, shr_chk, add_chk. change (11 <=? 32) with true. cbn [bind].
  change (32 - 11) with 21. change (21 <? 32) with true. cbn [bind].
  assert (E1 : (bw_offset w <? 32) = true) by lia. rewrite E1. cbn [bind].
  assert (E2 : (bw_offset w + 11 <? 2 ^ 64) = true).
  { apply N.ltb_lt. apply (N.lt_trans _ 32); [lia|reflexivity]. }
  rewrite E2. cbn [bind].
  assert (Hv : val_of_bits (bits_of 11 x) = x).
  { rewrite val_of_bits_bits_of. apply N.mod_small. exact Hx. }
  assert (Hs : N.shiftr (wrap 32 (N.shiftl x 21)) (bw_offset w)
               = val_of_bits (bits_of 11 x) * 2 ^ (32 - (len r + len (bits_of 11 x)))).
  { rewrite len_bits_of, Hv, Hr. change (N.of_nat 11) with 11.
    unfold wrap. rewrite N.shiftl_mul_pow2, N.mod_small.
    2:{ change (2 ^ 32) with (2048 * 2 ^ 21). apply N.mul_lt_mono_pos_r; [reflexivity|exact Hx]. }
    rewrite N.shiftr_div_pow2. rewrite (pow_split 21 (bw_offset w)) by lia.
    replace (32 - (bw_offset w + 11)) with (21 - bw_offset w) by lia.
    rewrite N.mul_assoc, N.div_mul by apply pow2_nz. reflexivity. }
  rewrite Hs, <- app_assoc.
  apply bw_drain_holds; auto.
  - rewrite len_app, len_bits_of. lia.
  - lia.
  - apply left_aligned_append; [exact Ha|]. rewrite len_bits_of. lia.
Qed.

Lemma bw_len_holds w b : bw_holds w b -> bw_len w = len b.
Proof.
  intros (r & -> & Hi & Hr & Ho & Ha). unfold bw_len. rewrite len_app, Hr.
  unfold len at 2. rewrite bits_of_bytes_length. unfold len. lia.
Qed.

Lemma bw_into_bytes_holds w b : bw_holds w b ->
  exists l pad, bw_into_bytes w = Ok l /\ bytes_ok l /\ bits_of_bytes l = b ++ pad /\ (length pad < 8)%nat.
Proof.
  intros (r & -> & Hi & Hr & Ho & Ha). unfold bw_into_bytes.
  destruct (N.eqb_spec (bw_offset w) 0) as [E|E].
  - exists (bw_inner w), []. rewrite app_nil_r. destruct r; [|unfold len in Hr; cbn in Hr; lia].
    rewrite app_nil_r. repeat split; auto. cbn. lia.
  - unfold shr_chk. change (24 <? 32) with true. cbn [bind].
    set (pad := repeat false (8 - length r)).
    assert (Hrl : N.of_nat (length r) = bw_offset w) by (unfold len in Hr; lia).
    assert (Hp : val_of_bits (r ++ pad) = N.shiftr (bw_remainder w) 24).
    { destruct Ha as [_ ->]. rewrite val_of_bits_app.
      assert (Hz : forall n, val_of_bits (repeat false n) = 0).
      { induction n as [|n IH]; [reflexivity|]. cbn [repeat]. rewrite val_of_bits_cons, IH. reflexivity. }
      unfold pad at 2. rewrite Hz, N.add_0_r. rewrite N.shiftr_div_pow2.
      unfold pad, len. rewrite repeat_length.
      rewrite (pow_split (32 - N.of_nat (length r)) 24) by lia.
      rewrite N.mul_assoc, N.div_mul by apply pow2_nz. f_equal. f_equal. lia. }
    assert (Hlp : length (r ++ pad) = 8%nat).
    { rewrite app_length. unfold pad. rewrite repeat_length. lia. }
    assert (Hlt : val_of_bits (r ++ pad) < 256).
    { pose proof (val_of_bits_lt (r ++ pad)) as H. unfold len in H. rewrite Hlp in H. exact H. }
    rewrite <- Hp. unfold wrap. rewrite N.mod_small by exact Hlt.
    eexists; exists pad. split; [reflexivity|]. split; [|split].
    + apply bytes_ok_app. split; [exact Hi|]. constructor; [exact Hlt|constructor].
    + rewrite bits_of_bytes_app, <- app_assoc. f_equal. unfold bits_of_bytes. cbn [flat_map].
      rewrite app_nil_r. rewrite <- Hlp at 1. apply bits_of_val_of_bits.
    + unfold pad. rewrite repeat_length. lia.
Qed.

(** ** BitIter *)

Definition bi_holds (it : bit_iter) (b : list bool) : Prop :=
  exists r, b = r ++ bits_of_bytes (bi_source it) /\ bytes_ok (bi_source it) /\ len r = bi_read it
         /\ bi_read it <= 18 /\ left_aligned 64 r (bi_buffer it).

Lemma bi_holds_new l : bytes_ok l -> bi_holds (bi_new l) (bits_of_bytes l).
Proof. intros H. exists []. cbn. split; [reflexivity|]. split; [exact H|]. split; [reflexivity|]. split; [lia|]. split; cbn; lia. Qed.

Lemma bi_fill_holds source r read buffer :
  bytes_ok source -> len r = read -> read <= 18 -> left_aligned 64 r buffer ->
  let b := r ++ bits_of_bytes source in
  (len b < 11 /\ bi_fill source read buffer = Ok None)
  \/ (11 <= len b /\ exists it, bi_fill source read buffer = Ok (Some it) /\ bi_holds it b /\ 11 <= bi_read it
        /\ (length (bi_source it) <= length source)%nat).
Proof.
  revert r read buffer. induction source as [|x source IH]; intros r read buffer Hok Hr Hread Ha b.
  - cbn [bi_fill]. subst b. cbn [bits_of_bytes flat_map]. rewrite app_nil_r.
    destruct (N.ltb_spec read 11) as [H|H].
    + left. split; [lia|reflexivity].
    + right. split; [lia|]. eexists; split; [reflexivity|]. split; [|split; [exact H|cbn; lia]].
      exists r. cbn. rewrite app_nil_r. repeat split; auto; try apply Ha.
  - cbn [bi_fill]. inversion Hok as [|? ? Hx Hok']; subst x0 l.
    destruct (N.ltb_spec read 11) as [H|H].
    + unfold add_chk, sub_chk, shl_chk.
      assert (E1 : (read + 8 <? 2 ^ 64) = true).
      { apply N.ltb_lt. apply (N.lt_trans _ 32); [lia|reflexivity]. }
      rewrite E1. cbn [bind].
      assert (E2 : (read + 8 <=? 64) = true) by lia. rewrite E2. cbn [bind].
      assert (E3 : (64 - (read + 8) <? 64) = true) by lia. rewrite E3. cbn [bind].
      assert (Hv : val_of_bits (bits_of 8 x) = x).
      { rewrite val_of_bits_bits_of. apply N.mod_small. exact Hx. }
      assert (Hs : wrap 64 (N.shiftl x (64 - (read + 8)))
                   = val_of_bits (bits_of 8 x) * 2 ^ (64 - (len r + len (bits_of 8 x)))).
      { rewrite Hv, len_bits_of, Hr. change (N.of_nat 8) with 8. unfold wrap.
        rewrite N.shiftl_mul_pow2. apply N.mod_small.
        rewrite (pow_split 64 (64 - (read + 8))) by lia.
        apply N.mul_lt_mono_pos_r; [pose proof (pow2_nz (64 - (read + 8))); lia|].
        eapply N.lt_le_trans; [exact Hx|]. change 256 with (2 ^ 8). apply N.pow_le_mono_r; [discriminate|lia]. }
      rewrite Hs.
      destruct (IH (r ++ bits_of 8 x) (read + 8)
                   (N.lor buffer (val_of_bits (bits_of 8 x) * 2 ^ (64 - (len r + len (bits_of 8 x))))))
        as [(Hl & He)|(Hl & it & He & Hh & Hge & Hle)]; auto.
      * rewrite len_app, len_bits_of. lia.
      * lia.
      * apply left_aligned_append; [exact Ha|]. rewrite len_bits_of. lia.
      * left. rewrite <- app_assoc in Hl. split; [exact Hl|exact He].
      * right. rewrite <- app_assoc in Hl, Hh. split; [exact Hl|]. exists it.
        repeat split; auto. cbn [length]. lia.
    + right. split; [subst b; rewrite len_app; lia|]. eexists; split; [reflexivity|].
      split; [|split; [exact H|cbn; lia]].
      exists r. cbn. repeat split; auto; try apply Ha.
Qed.

Lemma bi_next_holds it b : bi_holds it b ->
  (len b < 11 /\ bi_next it = Ok None)
  \/ (exists g b' it', b = g ++ b' /\ length g = 11%nat /\ bi_next it = Ok (Some (val_of_bits g, it')) /\ bi_holds it' b').
Proof.
  intros (r & -> & Hok & Hr & Hread & Ha). unfold bi_next.
  destruct (bi_fill_holds (bi_source it) r (bi_read it) (bi_buffer it) Hok Hr Hread Ha)
    as [(Hl & ->)|(Hl & it' & -> & Hh & Hge & Hle)].
  - left. split; [exact Hl|reflexivity].
  - right. cbn [bind]. destruct Hh as (r' & Hb & Hok' & Hr' & Hread' & Ha').
    destruct (len_le_split r' 11) as (g & s & -> & Hg); [lia|].
    unfold sub_chk, shr_chk, shl_chk. change (11 <=? 64) with true. cbn [bind].
    change (64 - 11 <? 64) with true. cbn [bind]. change (11 <? 64) with true. cbn [bind].
    assert (E : (11 <=? bi_read it') = true) by lia. rewrite E. cbn [bind].
    exists g, (s ++ bits_of_bytes (bi_source it')).
    assert (Ht : N.shiftr (bi_buffer it') (64 - 11) = val_of_bits g).
    { rewrite <- Hg. eapply left_aligned_top. exact Ha'. }
    rewrite Ht. unfold wrap at 1. rewrite (N.mod_small (val_of_bits g)).
    2:{ pose proof (val_of_bits_lt g) as H. rewrite Hg in H. eapply N.lt_trans; [exact H|reflexivity]. }
    eexists. split; [rewrite Hb, <- app_assoc; reflexivity|].
    split; [unfold len in Hg; lia|]. split; [reflexivity|].
    exists s. cbn. rewrite len_app in Hr'. repeat split; auto; try lia.
    rewrite <- Hg. eapply left_aligned_drop. exact Ha'.
Qed.

Lemma groups_short b : (length b < 11)%nat -> groups b = [].
Proof. intros H. unfold groups. rewrite Nat.div_small by exact H. reflexivity. Qed.

Lemma group_S i g b : length g = 11%nat -> group (S i) (g ++ b) = group i b.
Proof.
  intros H. unfold group. f_equal. rewrite skipn_app.
  rewrite skipn_all2 by lia. cbn [app]. f_equal. lia.
Qed.

Lemma groups_cons g b : length g = 11%nat -> groups (g ++ b) = g :: groups b.
Proof.
  intros H. unfold groups. rewrite app_length, H.
  replace ((11 + length b) / 11)%nat with (S (length b / 11)).
  2:{ rewrite <- (Nat.mul_1_l 11) at 2. rewrite Nat.div_add_l by discriminate. lia. }
  cbn [seq map]. f_equal.
  - unfold group. rewrite Nat.mul_0_r, skipn_O, firstn_app, H, Nat.sub_diag, firstn_O, app_nil_r.
    apply firstn_all2. lia.
  - rewrite <- seq_shift, map_map. apply map_ext. intros i. apply group_S. exact H.
Qed.

Lemma bi_collect_holds fuel it b : bi_holds it b -> (length b < 11 * fuel)%nat ->
  bi_collect fuel it = Ok (map val_of_bits (groups b)).
Proof.
  revert it b. induction fuel as [|fuel IH]; intros it b Hh Hf; [lia|].
  cbn [bi_collect]. destruct (bi_next_holds it b Hh) as [(Hl & ->)|(g & b' & it' & -> & Hg & -> & Hh')]; cbn [bind].
  - rewrite groups_short by (unfold len in Hl; lia). reflexivity.
  - rewrite (IH it' b' Hh') by (rewrite app_length in Hf; lia). cbn [bind].
    rewrite groups_cons by exact Hg. reflexivity.
Qed.

(** Running the iterator over a byte string yields the 11-bit groups of its bits. *)
Lemma bi_collect_spec l : bytes_ok l ->
  bi_collect (S (length l)) (bi_new l) = Ok (map val_of_bits (groups (bits_of_bytes l))).
Proof.
  intros H. apply bi_collect_holds; [apply bi_holds_new; exact H|].
  rewrite bits_of_bytes_length. lia.
Qed.

(** ** Groups and their concatenation *)
Lemma groups_concat idx pad : (length pad < 11)%nat ->
  groups (flat_map (bits_of 11) idx ++ pad) = map (bits_of 11) idx.
Proof.
  intros Hp. induction idx as [|i idx IH]; cbn [flat_map map].
  - apply groups_short. exact Hp.
  - rewrite <- app_assoc, groups_cons by apply bits_of_length. rewrite IH. reflexivity.
Qed.

Lemma flat_map_bits_length idx : length (flat_map (bits_of 11) idx) = (11 * length idx)%nat.
Proof.
  induction idx as [|i idx IH]; [reflexivity|]. cbn [flat_map length].
  rewrite app_length, bits_of_length, IH. lia.
Qed.

(** A bit string splits into whole groups and a remainder. *)
Lemma groups_decompose n b : length b = (11 * n)%nat ->
  flat_map (bits_of 11) (map val_of_bits (groups b)) = b /\ length (groups b) = n
  /\ Forall (fun i => i < 2048) (map val_of_bits (groups b)).
Proof.
  revert b. induction n as [|n IH]; intros b Hb.
  - destruct b; [|discriminate]. repeat split; constructor.
  - rewrite <- (firstn_skipn 11 b).
    assert (Hf : length (firstn 11 b) = 11%nat) by (rewrite firstn_length; lia).
    rewrite groups_cons by exact Hf. cbn [map flat_map length].
    destruct (IH (skipn 11 b)) as (H1 & H2 & H3); [rewrite skipn_length; lia|].
    rewrite H1, H2. split; [|split; [reflexivity|]].
    + f_equal. rewrite <- Hf at 1. apply bits_of_val_of_bits.
    + constructor; [|exact H3]. pose proof (val_of_bits_lt (firstn 11 b)) as H.
      unfold len in H. rewrite Hf in H. exact H.
Qed.

Lemma groups_firstn k b : (11 * k <= length b)%nat -> (length b < 11 * (k + 1))%nat ->
  groups b = groups (firstn (11 * k) b).
Proof.
  intros H1 H2. unfold groups. rewrite firstn_length, Nat.min_l by exact H1.
  replace (11 * k / 11)%nat with k by (rewrite Nat.mul_comm, Nat.div_mul; lia).
  replace (length b / 11)%nat with k by (apply Nat.div_unique with (length b - 11 * k)%nat; lia).
  apply map_ext_in. intros i Hi. apply in_seq in Hi. unfold group.
  rewrite skipn_firstn_comm, firstn_firstn. f_equal. lia.
Qed.
