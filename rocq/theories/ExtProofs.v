(** Extended keys as text: what write_base58 and from_str compute. *)
From Coq Require Import String ZifyBool ZifyNat ZifyN.
From Verif Require Import Outcome Bytes Str Hash HashLemmas Secp SpecSecp SecpProofs Base58 ModelBip32 SpecBip32 StrLemmas Base58Proofs.
Open Scope N_scope.

Lemma has_bytes_app n m a b : has_bytes n a -> has_bytes m b -> has_bytes (n + m) (a ++ b).
Proof. intros [La Ba] [Lb Bb]. split; [rewrite app_length; congruence|apply bytes_ok_app; auto]. Qed.
Lemma has_bytes_be w n : has_bytes w (be_bytes w n).
Proof. split; [apply be_bytes_length|apply be_bytes_ok]. Qed.
Lemma has_bytes_1 d : d < 256 -> has_bytes 1 [d].
Proof. intros H. split; [reflexivity|]. repeat constructor. exact H. Qed.
Lemma be_of_val w b : has_bytes w b -> be_bytes w (digits_val 256 b) = b.
Proof. intros [<- B]. apply be_bytes_be_val, B. Qed.
Lemma val_of_be w v : v < 256 ^ N.of_nat w -> digits_val 256 (be_bytes w v) = v.
Proof. intros H. rewrite digits_val_be, be_val_be_bytes. apply N.mod_small, H. Qed.
Lemma has_bytes_val_lt w b : has_bytes w b -> digits_val 256 b < 256 ^ N.of_nat w.
Proof. intros [<- B]. apply digits_val_lt, B. Qed.
Lemma u32_iff v : u32 v <-> v < 256 ^ N.of_nat 4.
Proof. reflexivity. Qed.

(** ** The 78 bytes *)
Lemma layout_bytes v a key payload : layout v a key payload -> has_bytes 78 payload.
Proof.
  intros (vb & cb & -> & Hv & _ & Hc & _ & (Hd & Hf & _ & Hcc) & Hk).
  change 78%nat with (4 + (1 + (4 + (4 + (32 + 33)))))%nat.
  repeat (apply has_bytes_app; [first [assumption|apply has_bytes_1, Hd]|]). exact Hk.
Qed.
Lemma layout_iff v a key payload : layout v a key payload <->
  u32 v /\ valid_attrs a /\ has_bytes 33 key
  /\ payload = be_bytes 4 v ++ [depth a] ++ parent_fingerprint a ++ be_bytes 4 (child_number a) ++ chain_code a ++ key.
Proof.
  split.
  - intros (vb & cb & -> & Hv & Ev & Hc & Ec & Ha & Hk). split; [|split; [exact Ha|split; [exact Hk|]]].
    + rewrite u32_iff, <- Ev. apply has_bytes_val_lt, Hv.
    + rewrite <- Ev, <- Ec, (be_of_val 4 vb Hv), (be_of_val 4 cb Hc). reflexivity.
  - intros (Hv & Ha & Hk & ->). exists (be_bytes 4 v), (be_bytes 4 (child_number a)).
    split; [reflexivity|]. split; [apply has_bytes_be|]. split; [apply val_of_be, Hv|]. split; [apply has_bytes_be|].
    split; [apply val_of_be; apply Ha|]. auto.
Qed.
Lemma layout_fun v a key p p' : layout v a key p -> layout v a key p' -> p = p'.
Proof. rewrite !layout_iff. intros (_ & _ & _ & ->) (_ & _ & _ & ->). reflexivity. Qed.
Lemma ek_payload_layout e : valid_ext e -> layout (version (ek_prefix e)) (ek_attrs e) (key_bytes e) (ek_payload e).
Proof. intros ((_ & _ & Hv) & Ha & Hk). apply layout_iff. auto. Qed.

Lemma slice_at {A} i j (a b c l : list A) : l = a ++ b ++ c -> length a = i -> (i + length b = j)%nat -> slice i j l = b.
Proof.
  intros -> La Lb. unfold slice. rewrite skipn_app, La, Nat.sub_diag. cbn [skipn].
  rewrite skipn_all2 by lia. cbn [app]. rewrite firstn_app. replace (j - i - length b)%nat with 0%nat by lia.
  rewrite firstn_all2 by lia. cbn [firstn]. apply app_nil_r.
Qed.
Lemma layout_fields v a key payload : layout v a key payload ->
  be_val (slice 0 4 payload) = v /\ nth_error payload 4 = Some (depth a) /\ slice 5 9 payload = parent_fingerprint a
  /\ be_val (slice 9 13 payload) = child_number a /\ slice 13 45 payload = chain_code a /\ slice 45 78 payload = key.
Proof.
  intros (vb & cb & -> & [Lv Bv] & Ev & [Lc Bc] & Ec & (Hd & [Lf _] & _ & [Lcc _]) & [Lk _]).
  split. { rewrite (slice_at 0 4 [] vb ([depth a] ++ parent_fingerprint a ++ cb ++ chain_code a ++ key)); [exact Ev|reflexivity|reflexivity|lia]. }
  split. { rewrite nth_error_app2 by lia. rewrite Lv. reflexivity. }
  split. { apply (slice_at _ _ (vb ++ [depth a]) _ (cb ++ chain_code a ++ key)); [|rewrite app_length; cbn [length]; lia|lia].
    rewrite <- !app_assoc. reflexivity. }
  split. { rewrite (slice_at 9 13 (vb ++ [depth a] ++ parent_fingerprint a) cb (chain_code a ++ key)); [exact Ec| |rewrite !app_length; cbn [length]; lia|lia].
    rewrite <- !app_assoc. reflexivity. }
  split. { apply (slice_at _ _ (vb ++ [depth a] ++ parent_fingerprint a ++ cb) _ key); [|rewrite !app_length; cbn [length]; lia|lia].
    rewrite <- !app_assoc. reflexivity. }
  apply (slice_at _ _ (vb ++ [depth a] ++ parent_fingerprint a ++ cb ++ chain_code a) _ []); [|rewrite !app_length; cbn [length]; lia|lia].
  rewrite app_nil_r, <- !app_assoc. reflexivity.
Qed.
Lemma cut n l : bytes_ok l -> (n <= length l)%nat -> exists a b, l = a ++ b /\ has_bytes n a /\ has_bytes (length l - n) b.
Proof.
  intros B H. exists (firstn n l), (skipn n l). split; [symmetry; apply firstn_skipn|].
  split; (split; [|first [apply bytes_ok_firstn|apply bytes_ok_skipn]; exact B]); [apply firstn_length_le, H|apply skipn_length].
Qed.
Lemma layout_exists payload : has_bytes 78 payload -> exists v a key, layout v a key payload.
Proof.
  intros [L B].
  destruct (cut 4 payload B ltac:(lia)) as (vb & r1 & -> & Hv & [L1 B1]). rewrite L in L1.
  destruct (cut 1 r1 B1 ltac:(lia)) as (db & r2 & -> & [Ld Bd] & [L2 B2]). rewrite L1 in L2.
  destruct (cut 4 r2 B2 ltac:(lia)) as (fp & r3 & -> & Hf & [L3 B3]). rewrite L2 in L3.
  destruct (cut 4 r3 B3 ltac:(lia)) as (cb & r4 & -> & Hc & [L4 B4]). rewrite L3 in L4.
  destruct (cut 32 r4 B4 ltac:(lia)) as (cc & key & -> & Hcc & [L5 B5]). rewrite L4 in L5.
  destruct db as [|d [|]]; try discriminate Ld. inversion Bd as [|? ? Hd _]; subst.
  exists (digits_val 256 vb), (mkAttrs d fp (digits_val 256 cb) cc), key. exists vb, cb.
  split; [reflexivity|]. split; [exact Hv|]. split; [reflexivity|]. split; [exact Hc|]. split; [reflexivity|].
  split; [|split; [exact L5|exact B5]]. split; [exact Hd|]. split; [exact Hf|]. split; [|exact Hcc].
  rewrite u32_iff. apply has_bytes_val_lt, Hc.
Qed.

(** ** Base58Check text is ASCII *)
Lemma base58_symbols_ascii d : nth (N.to_nat d) base58_symbols 0 < 128.
Proof.
  destruct (N.lt_ge_cases d 58) as [H|H]; [exact (proj2 (b58_digit_complete d H))|].
  rewrite nth_overflow; [reflexivity|]. change (length base58_symbols) with 58%nat. lia.
Qed.
Lemma base58_ascii data s : is_base58 data s -> Forall (fun c => c < 128) s.
Proof. intros (ds & _ & -> & _). apply Forall_map, Forall_forall. intros d _. apply base58_symbols_ascii. Qed.
Lemma base58_in_symbols data s : is_base58 data s -> Forall (fun c => In c base58_symbols) s.
Proof.
  intros (ds & F & -> & _). apply Forall_map. eapply Forall_impl; [|exact F]. intros d Hd. cbv beta in Hd |- *.
  apply nth_In. change (length base58_symbols) with 58%nat. lia.
Qed.
Lemma utf8_char_ascii c : c < 128 -> utf8_char c = [c].
Proof. intros H. unfold utf8_char. destruct (N.ltb_spec c 128) as [L|L]; [reflexivity|lia]. Qed.
Lemma utf8_ascii s : Forall (fun c => c < 128) s -> utf8 s = s.
Proof. induction 1 as [|c s Hc H IH]; [reflexivity|]. unfold utf8 in *. cbn [flat_map]. rewrite IH, utf8_char_ascii by exact Hc. reflexivity. Qed.
Lemma utf8_ascii_inv s : Forall (fun c => c < 128) (utf8 s) -> Forall (fun c => c < 128) s.
Proof.
  induction s as [|c s IH]; intros H; [constructor|]. unfold utf8 in *. cbn [flat_map] in H. apply Forall_app in H. destruct H as [H1 H2].
  constructor; [|apply IH, H2]. unfold utf8_char in H1.
  destruct (N.ltb_spec c 128) as [L|L]; [exact L|exfalso].
  destruct (c <? 0x800); [|destruct (c <? 0x10000)]; apply Forall_inv in H1; cbv beta in H1; clear - H1; revert H1; match goal with |- ?k + ?d < 128 -> _ => generalize d end; intros d H1; lia.
Qed.
Lemma from_utf8_ascii s : Forall (fun c => c < 128) s -> from_utf8 s = Some s.
Proof.
  intros H. unfold from_utf8. replace (forallb (fun c => c <? 128) s) with true; [reflexivity|].
  symmetry. apply forallb_forall. intros c Hc. rewrite Forall_forall in H. specialize (H c Hc). cbv beta in H. lia.
Qed.
Lemma letter_iff c : is_letter c = true <-> letter c.
Proof. unfold is_letter, letter. lia. Qed.
Lemma letters_iff s : forallb is_letter s = true <-> Forall letter s.
Proof. rewrite forallb_forall, Forall_forall. split; intros H c Hc; apply letter_iff, H, Hc. Qed.
Lemma letter_ascii c : letter c -> c < 128.
Proof. unfold letter. lia. Qed.
Lemma letters_ascii s : Forall letter s -> Forall (fun c => c < 128) s.
Proof. apply Forall_impl, letter_ascii. Qed.
Lemma validate_iff s : validate_str s = Ok tt <-> length s = 4%nat /\ Forall letter s.
Proof.
  unfold validate_str. rewrite <- letters_iff. destruct (N.eqb_spec (len s) 4) as [E|E]; unfold len in E.
  - destruct (forallb is_letter s); split; intros H; try discriminate H; [split; [lia|reflexivity]|reflexivity|destruct H as [_ H]; discriminate H].
  - split; [intros H; discriminate H|]. intros [L _]. lia.
Qed.
Lemma validate_total s : validate_str s = Ok tt \/ validate_str s = Err EDecode.
Proof. unfold validate_str. destruct (len s =? 4); [destruct (forallb is_letter s)|]; auto. Qed.
Lemma parts_ok s v p : from_parts_unchecked s v = Ok p <-> length s = 4%nat /\ Forall letter s /\ p = mkPrefix s v.
Proof.
  unfold from_parts_unchecked. destruct (validate_total s) as [E|E]; rewrite E.
  - apply validate_iff in E. split; [intros H; injection H as <-; tauto|]. intros (_ & _ & ->). reflexivity.
  - split; [intros H; discriminate H|]. intros (L & F & _). assert (X : validate_str s = Ok tt) by (apply validate_iff; auto). congruence.
Qed.
Lemma str_get_ascii s : Forall (fun c => c < 128) s -> forall k, str_get_to (N.of_nat k) s = if (length s <? k)%nat then None else Some (firstn k s).
Proof.
  induction 1 as [|c s Hc H IH]; intros k.
  - destruct k as [|k]; [reflexivity|]. cbn [str_get_to]. destruct (N.eqb_spec (N.of_nat (S k)) 0) as [E|E]; [lia|].
    destruct (Nat.ltb_spec (length (@nil N)) (S k)) as [X|X]; [reflexivity|cbn in X; lia].
  - cbn [str_get_to]. destruct (N.eqb_spec (N.of_nat k) 0) as [E|E].
    + assert (k = 0)%nat by lia. subst k. reflexivity.
    + rewrite utf8_char_ascii by exact Hc. cbv zeta. change (len [c]) with 1.
      destruct k as [|k]; [lia|]. destruct (N.leb_spec 1 (N.of_nat (S k))) as [L|L]; [|lia].
      replace (N.of_nat (S k) - 1) with (N.of_nat k) by lia. rewrite IH. cbn [length firstn].
      destruct (Nat.ltb_spec (length s) k) as [X|X], (Nat.ltb_spec (S (length s)) (S k)) as [Y|Y]; try lia; reflexivity.
Qed.

(** ** Writing *)
Lemma from_b58_ok {A} (m : res b58_error A) a : from_b58 m = Ok a <-> m = Ok a.
Proof. unfold from_b58. destruct m; cbn; split; intros H; try discriminate H; injection H as <-; reflexivity. Qed.
Lemma check_data payload : has_bytes 78 payload -> bytes_ok (payload ++ check_bytes payload) /\ length (payload ++ check_bytes payload) = 82%nat.
Proof.
  intros [L B]. split; [apply bytes_ok_app; split; [exact B|apply check_bytes_ok]|]. rewrite app_length, check_bytes_length. lia.
Qed.
Lemma encode_check_iff payload s : has_bytes 78 payload -> (encode_check_into 112 payload = Ok s <-> base58check payload s).
Proof. intros H. destruct (check_data payload H) as [B L]. apply encode_iff; assumption. Qed.
Lemma encode_check_fits payload : has_bytes 78 payload -> exists s, encode_check_into 112 payload = Ok s /\ base58check payload s /\ len s <= 112.
Proof.
  intros H. destruct (check_data payload H) as [B L]. destruct (encode_fits _ B L) as (s & E). exists s. split; [exact E|].
  apply encode_sound in E. exact E.
Qed.
Lemma write_base58_iff e s : valid_ext e -> (write_base58 e = Ok s <-> base58check (ek_payload e) s).
Proof.
  intros H. apply ek_payload_layout, layout_bytes in H. unfold write_base58, MAX_BASE58_SIZE. rewrite bind_ok. split.
  - intros (t & H1 & H2). apply from_b58_ok, encode_check_iff in H1; [|exact H].
    rewrite from_utf8_ascii in H2 by (eapply base58_ascii, H1). cbn in H2. injection H2 as <-. exact H1.
  - intros I. exists s. split; [apply from_b58_ok, encode_check_iff; assumption|].
    rewrite from_utf8_ascii by (eapply base58_ascii, I). reflexivity.
Qed.
Lemma base58check_exists payload : has_bytes 78 payload -> exists s, base58check payload s /\ len s <= 112.
Proof. intros H. destruct (encode_check_fits payload H) as (s & _ & X). eauto. Qed.
Lemma to_string_iff e s : valid_ext e -> (ek_to_string e = Ok s <-> base58check (ek_payload e) s).
Proof.
  intros H. rewrite <- (write_base58_iff e s H). unfold ek_to_string. destruct (write_base58 e); split; intros X; try discriminate X; exact X.
Qed.
Lemma to_string_exists e : valid_ext e -> exists s, ek_to_string e = Ok s /\ base58check (ek_payload e) s /\ len s <= 112.
Proof.
  intros H. pose proof H as H'. apply ek_payload_layout, layout_bytes in H'. destruct (base58check_exists _ H') as (s & I & L).
  exists s. split; [apply to_string_iff; assumption|]. auto.
Qed.
Lemma base58check_inj p p' s : bytes_ok p -> bytes_ok p' -> base58check p s -> base58check p' s -> p = p'.
Proof.
  intros B B' H H'. assert (E : p ++ check_bytes p = p' ++ check_bytes p').
  { apply (is_base58_unique _ _ s); [apply bytes_ok_app; split; [assumption|apply check_bytes_ok]..|exact H|exact H']. }
  assert (L : length p = length p'). { apply (f_equal (@length N)) in E. rewrite !app_length, !check_bytes_length in E. lia. }
  apply (f_equal (firstn (length p))) in E. rewrite firstn_app, firstn_all, Nat.sub_diag in E.
  rewrite L in E at 1. rewrite firstn_app, firstn_all, Nat.sub_diag in E. cbn [firstn] in E. rewrite !app_nil_r in E. exact E.
Qed.

(** ** Reading *)
Lemma ek_from_str_iff s e : ek_from_str s = Ok e <->
  valid_ext e /\ chars (ek_prefix e) = firstn 4 s
  /\ exists payload, layout (version (ek_prefix e)) (ek_attrs e) (key_bytes e) payload /\ base58check payload s.
Proof.
  unfold ek_from_str. rewrite bind_ok. change (N.of_nat BYTE_SIZE + 4) with 82. change (N.of_nat BYTE_SIZE) with 78. split.
  - intros (payload & H1 & H2). apply from_b58_ok, decode_check_iff in H1. destruct H1 as (B & I & _).
    assert (A : Forall (fun c => c < 128) s) by (apply utf8_ascii_inv; eapply base58_ascii, I).
    rewrite utf8_ascii in I by exact A.
    destruct (N.eqb_spec (len payload) 78) as [L|L]; cbn [negb] in H2; [|discriminate H2].
    assert (Hp : has_bytes 78 payload) by (split; [unfold len in L; lia|exact B]).
    destruct (layout_exists payload Hp) as (v & a & key & Lay). destruct (layout_fields _ _ _ _ Lay) as (F1 & F2 & F3 & F4 & F5 & F6).
    unfold child_from_bytes in H2. rewrite F1, F3, F4, F5, F6 in H2. unfold index in H2. change (N.to_nat 4) with 4%nat in H2. rewrite F2 in H2.
    change 4 with (N.of_nat 4) in H2. rewrite (str_get_ascii s A) in H2.
    apply bind_ok in H2. destruct H2 as (pre & H2 & H3). cbn [or_panic bind] in H3. injection H3 as <-.
    destruct (Nat.ltb_spec (length s) 4) as [X|X]; [discriminate H2|]. cbn [ok_or bind] in H2.
    assert (A4 : Forall (fun c => c < 128) (firstn 4 s)).
    { rewrite <- (firstn_skipn 4 s) in A. apply Forall_app in A. apply A. }
    rewrite utf8_ascii in H2 by exact A4. apply bind_ok in H2. destruct H2 as (u & _ & H2). apply parts_ok in H2.
    destruct H2 as (L4 & F & ->). cbn [ek_prefix ek_attrs key_bytes chars version].
    pose proof (proj1 (layout_iff _ _ _ _) Lay) as (Uv & Va & Hk & _).
    split; [|split; [reflexivity|exists payload; auto]]. split; [|auto]. split; [exact L4|]. auto.
  - intros (((L4 & F & Uv) & Va & Hk) & Ec & payload & Lay & I). exists payload.
    assert (A : Forall (fun c => c < 128) s) by (eapply base58_ascii, I).
    pose proof (layout_bytes _ _ _ _ Lay) as [Lp Bp]. split.
    + apply from_b58_ok, decode_check_iff. rewrite utf8_ascii by exact A. split; [exact Bp|]. split; [exact I|]. unfold len. rewrite Lp. reflexivity.
    + destruct (layout_fields _ _ _ _ Lay) as (F1 & F2 & F3 & F4 & F5 & F6). unfold len. rewrite Lp. cbn [negb N.of_nat N.eqb].
      change (negb (N.of_nat 78 =? 78)) with false. cbv iota.
      unfold child_from_bytes. rewrite F1, F3, F4, F5, F6. unfold index. change (N.to_nat 4) with 4%nat. rewrite F2.
      change 4 with (N.of_nat 4). rewrite (str_get_ascii s A). rewrite <- Ec.
      assert (X : (4 <= length s)%nat). { rewrite Ec, firstn_length in L4. lia. }
      destruct (Nat.ltb_spec (length s) 4) as [Y|Y]; [lia|]. cbn [ok_or bind].
      rewrite utf8_ascii by (apply letters_ascii, F). rewrite (proj2 (validate_iff _)) by auto. cbn [bind].
      rewrite (proj2 (parts_ok _ _ (mkPrefix (chars (ek_prefix e)) (version (ek_prefix e))))) by auto. cbn [bind or_panic].
      destruct e as [[cs v] [d fp cn cc] kb]. reflexivity.
Qed.
Lemma from_b58_err {A} (m : res b58_error A) : m <> Panic -> (exists a, m = Ok a) \/ from_b58 m = Err EBase58.
Proof. unfold from_b58. destruct m; cbn; [eauto|auto|congruence]. Qed.
Lemma ek_from_str_errors s :
  ((forall payload, bytes_ok payload -> len payload <= 78 -> ~ base58check payload s) -> ek_from_str s = Err EBase58)
  /\ ((exists payload, bytes_ok payload /\ len payload <= 78 /\ base58check payload s) ->
      (exists e, ek_from_str s = Ok e) \/ ek_from_str s = Err EDecode).
Proof.
  unfold ek_from_str. change (N.of_nat BYTE_SIZE + 4) with 82. change (N.of_nat BYTE_SIZE) with 78. split.
  - intros H. destruct (from_b58_err (decode_check_into 82 (utf8 s)) (decode_check_no_panic _ _)) as [(payload & E)|E]; [exfalso|rewrite E; reflexivity].
    apply decode_check_iff in E. destruct E as (B & I & L). apply (H payload B); [lia|].
    rewrite utf8_ascii in I; [exact I|]. apply utf8_ascii_inv. eapply base58_ascii, I.
  - intros (payload & B & L & I). assert (A : Forall (fun c => c < 128) s) by (eapply base58_ascii, I).
    assert (E : from_b58 (decode_check_into 82 (utf8 s)) = Ok payload).
    { apply from_b58_ok, decode_check_iff. rewrite utf8_ascii by exact A. split; [exact B|]. split; [exact I|lia]. }
    rewrite E. cbn [bind]. destruct (N.eqb_spec (len payload) 78) as [L'|L']; cbn [negb]; [|auto].
    change 4 with (N.of_nat 4). rewrite (str_get_ascii s A). destruct (Nat.ltb_spec (length s) 4) as [X|X]; cbn [ok_or bind]; [auto|].
    destruct (validate_total (utf8 (firstn 4 s))) as [V|V]; rewrite V; cbn [bind]; [|auto].
    rewrite (proj2 (parts_ok _ _ (mkPrefix (utf8 (firstn 4 s)) (be_val (slice 0 (N.to_nat (N.of_nat 4)) payload))))) by (apply validate_iff in V; tauto).
    cbn [bind]. unfold index. destruct (nth_error payload (N.to_nat (N.of_nat 4))) as [d|] eqn:En; cbn [or_panic bind]; [left; eauto|exfalso].
    apply nth_error_None in En. unfold len in L'. lia.
Qed.
Lemma ek_from_str_no_panic s : ek_from_str s <> Panic.
Proof.
  destruct (ek_from_str_errors s) as [H1 H2].
  destruct (decode_check_into 82 s) as [payload|e|] eqn:E.
  - apply decode_check_iff in E. destruct E as (B & I & L).
    destruct H2 as [(e & ->)| ->]; [exists payload; repeat split; auto; lia|discriminate..].
  - rewrite H1; [discriminate|]. intros payload B L I.
    assert (X : decode_check_into 82 s = Ok payload) by (apply decode_check_iff; repeat split; auto; lia). congruence.
  - destruct (decode_check_no_panic _ _ E).
Qed.

(** ** The leading characters *)
Lemma digits_val_firstn b k m ds W : 1 < b -> Forall (fun d => d < b) ds -> length ds = (k + m)%nat ->
  W * b ^ N.of_nat m <= digits_val b ds -> digits_val b ds < (W + 1) * b ^ N.of_nat m -> digits_val b (firstn k ds) = W.
Proof.
  intros Hb F L H1 H2. rewrite <- (firstn_skipn k ds) in H1, H2, F. apply Forall_app in F. destruct F as [F1 F2].
  rewrite digits_val_app in H1, H2. pose proof (digits_val_lt b _ F2) as B.
  assert (Lm : len (skipn k ds) = N.of_nat m). { unfold len. rewrite skipn_length, L. f_equal. lia. }
  rewrite Lm in *. set (P := b ^ N.of_nat m) in *. set (x := digits_val b (firstn k ds)) in *. set (y := digits_val b (skipn k ds)) in *.
  assert (x < W + 1 /\ W < x + 1); [|lia]. split; apply (N.mul_lt_mono_pos_r P); try lia.
Qed.
Lemma digits_val_length b ds k : 1 < b -> Forall (fun d => d < b) ds -> leading_zeros ds = 0%nat ->
  b ^ N.of_nat k <= digits_val b ds -> digits_val b ds < b ^ N.of_nat (S k) -> length ds = S k.
Proof.
  intros Hb F Z H1 H2.
  assert (len (rev ds) <= N.of_nat (S k)). { apply (normal_len b); [apply no_leading_normal, Z|exact Hb|rewrite lev_rev; exact H2]. }
  unfold len in H. rewrite rev_length in H.
  pose proof (digits_val_lt b ds F) as B. assert (X : b ^ N.of_nat k < b ^ len ds) by lia.
  apply N.pow_lt_mono_r_iff in X; [|exact Hb]. unfold len in X. lia.
Qed.
Lemma head_range v rest : bytes_ok rest -> length rest = 78%nat -> 0 < v -> u32 v ->
  v * 256 ^ 78 <= digits_val 256 (be_bytes 4 v ++ rest) /\ digits_val 256 (be_bytes 4 v ++ rest) < (v + 1) * 256 ^ 78.
Proof.
  intros B L Hv Hu. rewrite digits_val_app. rewrite val_of_be by exact Hu. pose proof (digits_val_lt 256 rest B) as X.
  unfold len in *. rewrite L in *. change (N.of_nat 78) with 78 in *. generalize dependent (256 ^ 78). intros P X. lia.
Qed.

(** The first four symbols of a number between lo and hi (without leading zero bytes) are the digits ds, and
    there are 111 symbols. *)
Definition head_ok (lo hi : N) (ds : list N) : bool :=
  ((length ds =? 4)%nat && forallb (fun d => d <? 58) ds && (58 ^ 110 <=? lo) && (hi <=? 58 ^ 111)
  && (digits_val 58 ds * 58 ^ 107 <=? lo) && (hi <=? (digits_val 58 ds + 1) * 58 ^ 107))%bool.
Lemma head_ok_sound lo hi ds data s : head_ok lo hi ds = true -> leading_zeros data = 0%nat ->
  lo <= digits_val 256 data -> digits_val 256 data < hi -> is_base58 data s ->
  length s = 111%nat /\ firstn 4 s = map b58_char ds.
Proof.
  intros H Z0 R1 R2 (es & F & -> & Z & V). unfold head_ok in H. rewrite !andb_true_iff in H.
  destruct H as (((((H1 & H2) & H5) & H6) & H7) & H8).
  apply N.leb_le in H5, H6, H7, H8. apply Nat.eqb_eq in H1.
  assert (Fd : Forall (fun d => d < 58) ds).
  { apply Forall_forall. intros d Hd. rewrite forallb_forall in H2. apply N.ltb_lt, H2, Hd. }
  rewrite <- V in R1, R2. rewrite Z0 in Z.
  assert (Le : length es = 111%nat).
  { apply (digits_val_length 58); [reflexivity|exact F|exact Z| |].
    - change (N.of_nat 110) with 110. exact (N.le_trans _ _ _ H5 R1).
    - change (N.of_nat 111) with 111. exact (N.lt_le_trans _ _ _ R2 H6). }
  split; [rewrite map_length; exact Le|]. rewrite firstn_map. unfold b58_char. f_equal.
  apply (digits_val_inj 58); [|exact Fd| |].
  - rewrite <- (firstn_skipn 4 es) in F. apply Forall_app in F. apply F.
  - rewrite firstn_length, Le, H1. reflexivity.
  - apply (digits_val_firstn 58 4 107); [reflexivity|exact F|exact Le| |]; change (N.of_nat 107) with 107.
    + exact (N.le_trans _ _ _ H7 R1).
    + exact (N.lt_le_trans _ _ _ R2 H8).
Qed.
(** Whatever the 78 bytes behind the version. *)
Definition fixed_head (v : N) (ds : list N) : bool :=
  ((2 ^ 24 <=? v) && (v <? 2 ^ 32) && head_ok (v * 256 ^ 78) ((v + 1) * 256 ^ 78) ds)%bool.
Lemma lz_be4 v rest : 2 ^ 24 <= v -> v < 2 ^ 32 -> leading_zeros (be_bytes 4 v ++ rest) = 0%nat.
Proof.
  intros H1 H2. cbn [be_bytes app].
  assert (X : (v / 256 / 256 / 256) mod 256 <> 0); [|destruct ((v / 256 / 256 / 256) mod 256); [congruence|reflexivity]].
  rewrite !N.div_div by discriminate. change (256 * (256 * 256)) with (2 ^ 24).
  assert (1 <= v / 2 ^ 24) by (apply N.div_le_lower_bound; [discriminate|lia]).
  assert (v / 2 ^ 24 < 256) by (apply N.div_lt_upper_bound; [discriminate|exact H2]).
  change (256 * 256 * 256) with (2 ^ 24). rewrite N.mod_small by assumption. lia.
Qed.
Lemma fixed_head_ok v ds rest s : fixed_head v ds = true -> bytes_ok rest -> length rest = 78%nat ->
  is_base58 (be_bytes 4 v ++ rest) s -> length s = 111%nat /\ firstn 4 s = map b58_char ds.
Proof.
  intros H B L I. unfold fixed_head in H. rewrite !andb_true_iff in H. destruct H as ((H3 & H4) & H).
  apply N.leb_le in H3. apply N.ltb_lt in H4.
  destruct (head_range v rest B L) as [R1 R2]; [lia|exact H4|].
  exact (head_ok_sound _ _ _ _ _ H (lz_be4 v rest H3 H4) R1 R2 I).
Qed.

(** A text is at least as long as its data. *)
Lemma base58_longer data s : bytes_ok data -> is_base58 data s -> (length data <= length s)%nat.
Proof.
  intros B (ds & F & -> & Z & V). rewrite map_length.
  destruct (leading_zeros_split data) as (m & Em & Zm). destruct (leading_zeros_split ds) as (m' & Em' & Zm').
  rewrite Z in Em'. clear Z. revert Em Em'. generalize (leading_zeros data). intros z Em Em'. subst data ds.
  rewrite !digits_val_zeros in V. rewrite !app_length, !repeat_length.
  enough (length m <= length m')%nat by lia. apply Forall_app in F. destruct F as [_ F].
  destruct (length m) as [|k] eqn:E; [lia|].
  pose proof (no_leading_normal 256 m Zm k ltac:(rewrite rev_length; exact E)) as L. rewrite lev_rev, <- V in L.
  pose proof (digits_val_lt 58 m' F) as U.
  assert (58 ^ len m' <= 256 ^ len m') by (apply N.pow_le_mono_l; lia).
  assert (X : 256 ^ N.of_nat k < 256 ^ len m') by lia. apply N.pow_lt_mono_r_iff in X; [|reflexivity]. unfold len in X. lia.
Qed.

(** Symbol values of a text. *)
Definition symbol_values (s : str) : list N := map (fun c => match b58_digit c with Some d => d | None => 0 end) s.
Definition std_ok (p : prefix) : bool :=
  fixed_head (version p) (symbol_values (chars p)) && bytes_eqb (map b58_char (symbol_values (chars p))) (chars p).
Lemma std_ok_all : forallb std_ok (prv_prefixes ++ pub_prefixes) = true.
Proof. vm_compute. reflexivity. Qed.
Lemma std_head p rest s : In p (prv_prefixes ++ pub_prefixes) -> bytes_ok rest -> length rest = 78%nat ->
  is_base58 (be_bytes 4 (version p) ++ rest) s -> length s = 111%nat /\ firstn 4 s = chars p.
Proof.
  intros Hp B L I. pose proof std_ok_all as A. rewrite forallb_forall in A. specialize (A p Hp). unfold std_ok in A.
  apply andb_true_iff in A. destruct A as [A1 A2]. apply bytes_eqb_spec in A2.
  destruct (fixed_head_ok _ _ _ _ A1 B L I) as [X Y]. split; [exact X|]. rewrite Y. exact A2.
Qed.
Lemma std_valid p : In p (prv_prefixes ++ pub_prefixes) -> valid_prefix p.
Proof.
  intros H. assert (A : forallb (fun p => (length (chars p) =? 4)%nat && forallb is_letter (chars p) && (version p <? 2 ^ 32)) (prv_prefixes ++ pub_prefixes) = true) by (vm_compute; reflexivity).
  rewrite forallb_forall in A. specialize (A p H). rewrite !andb_true_iff in A. destruct A as ((A1 & A2) & A3).
  split; [apply Nat.eqb_eq, A1|]. split; [apply letters_iff, A2|apply N.ltb_lt, A3].
Qed.
Lemma std_text e s : valid_ext e -> In (ek_prefix e) (prv_prefixes ++ pub_prefixes) -> ek_to_string e = Ok s ->
  length s = 111%nat /\ firstn 4 s = chars (ek_prefix e).
Proof.
  intros V Hp H. apply to_string_iff in H; [|exact V].
  pose proof (ek_payload_layout e V) as Lay. pose proof (layout_bytes _ _ _ _ Lay) as [Lp Bp].
  destruct (check_data _ (conj Lp Bp)) as [B L].
  unfold base58check in H. fold (check_bytes (ek_payload e)) in H. unfold ek_payload at 1, prefix_to_bytes in H.
  rewrite <- app_assoc in H. apply std_head in H; auto.
  - unfold ek_payload at 1 in B. rewrite <- app_assoc in B. apply bytes_ok_app in B. apply B.
  - unfold ek_payload at 1 in L. rewrite <- app_assoc, app_length in L. unfold prefix_to_bytes in L. rewrite be_bytes_length in L. lia.
Qed.
Lemma std_round_trip e s : valid_ext e -> In (ek_prefix e) (prv_prefixes ++ pub_prefixes) -> ek_to_string e = Ok s -> ek_from_str s = Ok e.
Proof.
  intros V Hp H. apply ek_from_str_iff. split; [exact V|]. split; [symmetry; apply (std_text e s V Hp H)|].
  exists (ek_payload e). split; [apply ek_payload_layout, V|apply to_string_iff; assumption].
Qed.
