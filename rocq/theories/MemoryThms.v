(** Proofs about what is left in local buffers (restated in PropMemory.v). *)
From Coq Require Import String ZifyBool ZifyNat ZifyN.
From Verif Require Import Outcome Bytes Str Hash HashLemmas Secp Base58 ModelBip32 ModelMemory SpecBip32 StrLemmas Base58Proofs ExtProofs KeyTextThms.
Open Scope N_scope.

(** ** The buffer model computes the same results *)
Lemma push_carry_mem_fst bo cap : forall fuel out c, fst (push_carry_mem fuel bo cap out c) = push_carry fuel bo cap out c.
Proof.
  induction fuel as [|f IH]; intros out c; cbn [push_carry_mem push_carry]; destruct (c =? 0); try reflexivity.
  destruct (len out =? cap); [reflexivity|apply IH].
Qed.
Lemma decode_loop_mem_ok cap : forall input out o, fst (decode_loop_mem cap input out) = Ok o <->
  exists ds, b58_digits input = Ok ds /\ convert 58 256 cap ds out = Ok o.
Proof.
  induction input as [|c input IH]; intros out o; cbn [decode_loop_mem b58_digits].
  - cbn [fst]. split; [intros H; exists []; split; [reflexivity|exact H]|]. intros (ds & H & C). injection H as <-. exact C.
  - destruct (127 <? c). { cbn [fst]. split; [intros H; discriminate H|]. intros (ds & H & _). discriminate H. }
    destruct (b58_digit c) as [d|]; [|cbn [fst]; split; [intros H; discriminate H|intros (ds & H & _); discriminate H]].
    destruct (mul_add 58 256 out d) as [o1 carry] eqn:M.
    pose proof (push_carry_mem_fst 256 cap (N.size_nat carry) o1 carry) as P.
    destruct (push_carry_mem (N.size_nat carry) 256 cap o1 carry) as [[o2|e|] b]; cbn [fst] in P.
    + rewrite IH. split.
      * intros (ds & H & C). exists (d :: ds). rewrite H. cbn [bind]. split; [reflexivity|]. cbn [convert]. rewrite M, <- P. exact C.
      * intros (ds & H & C). apply bind_ok in H. destruct H as (ds' & H & E). injection E as <-. exists ds'. split; [exact H|].
        cbn [convert] in C. rewrite M, <- P in C. exact C.
    + cbn [fst]. split; [intros H; discriminate H|]. intros (ds & H & C). apply bind_ok in H. destruct H as (ds' & H & E). injection E as <-.
      cbn [convert] in C. rewrite M, <- P in C. discriminate C.
    + cbn [fst]. split; [intros H; discriminate H|]. intros (ds & H & C). apply bind_ok in H. destruct H as (ds' & H & E). injection E as <-.
      cbn [convert] in C. rewrite M, <- P in C. discriminate C.
Qed.
Lemma decode_loop_mem_panic cap : forall input out, fst (decode_loop_mem cap input out) <> Panic.
Proof.
  induction input as [|c input IH]; intros out; cbn [decode_loop_mem]; [intros H; discriminate H|].
  destruct (127 <? c); [intros H; discriminate H|]. destruct (b58_digit c) as [d|]; [|intros H; discriminate H].
  destruct (mul_add 58 256 out d) as [o1 carry] eqn:M.
  pose proof (push_carry_mem_fst 256 cap (N.size_nat carry) o1 carry) as P.
  destruct (mul_add_ok 58 256 out ltac:(lia) _ _ _ M) as (_ & F & _).
  pose proof (push_carry_ok 256 cap ltac:(lia) (N.size_nat carry) o1 carry (size_nat_lt carry) F) as Q.
  rewrite <- P in Q. destruct (push_carry_mem _ _ _ _ _) as [[o2|e|] b]; cbn [fst] in Q |- *; [apply IH|intros H; discriminate H|destruct Q].
Qed.
Lemma b58_digit_zero c d : b58_digit c = Some d -> (c =? 49) = (d =? 0).
Proof.
  intros H. destruct (b58_digit_sound c d H) as [L E]. subst c. clear H. revert d L.
  assert (A : forallb (fun d => Bool.eqb (b58_char d =? 49) (d =? 0)) (digits_below 58) = true) by (vm_compute; reflexivity).
  intros d L. pose proof (forall_below 58 _ A d L) as B. apply Bool.eqb_prop in B. exact B.
Qed.
Lemma push_zeros_mem_fst cap : forall input ds out, b58_digits input = Ok ds ->
  fst (push_zeros_mem cap input out) = push_zeros cap ds out.
Proof.
  induction input as [|c input IH]; intros ds out H; cbn [b58_digits] in H.
  - injection H as <-. reflexivity.
  - destruct (127 <? c); [discriminate H|]. destruct (b58_digit c) as [d|] eqn:D; [|discriminate H].
    apply bind_ok in H. destruct H as (ds' & H & E). injection E as <-. cbn [push_zeros_mem]. rewrite (b58_digit_zero c d D).
    destruct d as [|d]; cbn [push_zeros N.eqb]; [|reflexivity]. destruct (len out =? cap); [reflexivity|apply IH, H].
Qed.
Lemma push_zeros_mem_panic cap : forall input out, fst (push_zeros_mem cap input out) <> Panic.
Proof.
  induction input as [|c input IH]; intros out; cbn [push_zeros_mem]; [intros H; discriminate H|].
  destruct (c =? 49); [|intros H; discriminate H]. destruct (len out =? cap); [intros H; discriminate H|apply IH].
Qed.
Lemma decode_into_mem_ok cap s data : fst (decode_into_mem cap s) = Ok data <-> decode_into cap s = Ok data.
Proof.
  rewrite decode_conv, bind_ok. unfold decode_into_mem.
  pose proof (decode_loop_mem_ok cap s []) as L. destruct (decode_loop_mem cap s []) as [[o|e|] b]; cbn [fst] in L.
  - destruct (proj1 (L o) eq_refl) as (ds & D & C). pose proof (push_zeros_mem_fst cap s ds o D) as Z.
    transitivity (conv 58 256 cap ds = Ok data).
    + unfold conv. rewrite C. cbn [bind]. rewrite <- Z. destruct (push_zeros_mem cap s o) as [[o'|e|] b']; cbn [fst bind]; reflexivity.
    + split; [intros H; exists ds; split; [exact D|exact H]|]. intros (ds' & D' & H). rewrite D in D'. injection D' as <-. exact H.
  - cbn [fst]. split; [intros H; discriminate H|]. intros (ds & D & H). apply bind_ok in H. destruct H as (o & C & _).
    assert (X : Err e = Ok o) by (apply L; eauto). discriminate X.
  - cbn [fst]. split; [intros H; discriminate H|]. intros (ds & D & H). apply bind_ok in H. destruct H as (o & C & _).
    assert (X : Panic = Ok o) by (apply L; eauto). discriminate X.
Qed.
Lemma decode_into_mem_snd cap s data : fst (decode_into_mem cap s) = Ok data -> snd (decode_into_mem cap s) = data.
Proof.
  unfold decode_into_mem. destruct (decode_loop_mem cap s []) as [[o|e|] b]; [|intros H; discriminate H..].
  destruct (push_zeros_mem cap s o) as [[o'|e|] b']; cbn [fst snd]; intros H; [|discriminate H..]. injection H as <-. reflexivity.
Qed.
Lemma decode_into_mem_panic cap s : fst (decode_into_mem cap s) <> Panic.
Proof.
  unfold decode_into_mem. pose proof (decode_loop_mem_panic cap s []) as P.
  destruct (decode_loop_mem cap s []) as [[o|e|] b]; cbn [fst] in P |- *; [|intros H; discriminate H|exact P].
  pose proof (push_zeros_mem_panic cap s o) as Q.
  destruct (push_zeros_mem cap s o) as [[o'|e|] b']; cbn [fst] in Q |- *; [intros H; discriminate H..|exact Q].
Qed.
Lemma res_from_b58 {A} (x y : res b58_error A) : x <> Panic -> y <> Panic -> (forall a, x = Ok a <-> y = Ok a) -> from_b58 x = from_b58 y.
Proof.
  intros Px Py H. unfold from_b58. destruct x as [a|e|]; [| |destruct (Px eq_refl)].
  - rewrite (proj1 (H a) eq_refl). reflexivity.
  - destruct y as [a|e'|]; [|reflexivity|destruct (Py eq_refl)]. pose proof (proj2 (H a) eq_refl) as X. discriminate X.
Qed.
Lemma decode_check_mem_fst cap s : from_b58 (fst (decode_check_mem cap s)) = from_b58 (decode_check_into cap s).
Proof.
  unfold decode_check_mem, decode_check_into.
  pose proof (decode_into_mem_ok cap s) as I. pose proof (decode_into_mem_panic cap s) as P. pose proof (decode_no_panic cap s) as Q.
  destruct (decode_into_mem cap s) as [[out|e|] b]; cbn [fst] in *.
  - rewrite (proj1 (I out) eq_refl). reflexivity.
  - destruct (decode_into cap s) as [out|e'|]; [|reflexivity|destruct (Q eq_refl)].
    pose proof (proj2 (I out) eq_refl) as X. discriminate X.
  - destruct (P eq_refl).
Qed.
Lemma decode_check_mem_buffer cap s data : decode_into cap s = Ok data -> snd (decode_check_mem cap s) = data.
Proof.
  intros H. apply decode_into_mem_ok in H. pose proof (decode_into_mem_snd _ _ _ H) as S.
  unfold decode_check_mem. destruct (decode_into_mem cap s) as [[out|e|] b]; cbn [fst snd] in *; [exact S|discriminate H..].
Qed.

Lemma array_first n k w : (k <= length w)%nat -> firstn k (array n w) = firstn k w.
Proof. intros H. unfold array. rewrite firstn_app. replace (k - length w)%nat with 0%nat by lia. cbn [firstn]. apply app_nil_r. Qed.
Lemma array_full n w : length w = n -> array n w = w.
Proof. intros <-. unfold array. rewrite Nat.sub_diag. cbn [repeat]. apply app_nil_r. Qed.
Lemma slice_first {A} i j k (l : list A) : (j <= k)%nat -> slice i j l = slice i j (firstn k l).
Proof.
  intros H. unfold slice. replace (skipn i (firstn k l)) with (firstn (k - i) (skipn i l)); [|symmetry; apply skipn_firstn_comm].
  rewrite firstn_firstn. f_equal. lia.
Qed.
Lemma mem_payload s payload : decode_check_into 82 (utf8 s) = Ok payload ->
  exists rest, snd (decode_check_mem 82 (utf8 s)) = payload ++ rest /\ (length payload + length rest <= 82)%nat.
Proof.
  intros H. apply decode_check_iff in H. destruct H as (B & I & L). exists (check_bytes payload). split.
  - apply decode_check_mem_buffer, decode_iff. split; [apply bytes_ok_app; split; [exact B|apply check_bytes_ok]|].
    split; [exact I|]. rewrite len_app. unfold len in *. rewrite check_bytes_length. exact L.
  - rewrite check_bytes_length. unfold len in L. lia.
Qed.
Lemma mem_cases s : fst (ek_from_str_mem s) = ek_from_str s
  /\ forall e, ek_from_str s = Ok e -> snd (ek_from_str_mem s) = repeat 0 82.
Proof.
  unfold ek_from_str_mem, ek_from_str. change (N.of_nat BYTE_SIZE + 4) with 82. change (N.of_nat BYTE_SIZE) with 78.
  change (BYTE_SIZE + 4)%nat with 82%nat. pose proof (decode_check_mem_fst 82 (utf8 s)) as F.
  pose proof (mem_payload s) as M. destruct (decode_check_mem 82 (utf8 s)) as [r w]. cbn [fst snd] in F, M. rewrite F.
  destruct (from_b58 (decode_check_into 82 (utf8 s))) as [payload|e|] eqn:D; cbn [bind];
    [|split; [reflexivity|intros x H; discriminate H]..].
  apply from_b58_ok in D. destruct (M payload D) as (rest & -> & L).
  destruct (N.eqb_spec (len payload) 78) as [Lp|Lp]; cbn [negb]; [|split; [reflexivity|intros x H; discriminate H]].
  assert (Lp' : length payload = 78%nat) by (unfold len in Lp; lia).
  assert (A : firstn 78 (array 82 (payload ++ rest)) = payload).
  { rewrite array_first by (rewrite app_length; lia). rewrite firstn_app, Lp', Nat.sub_diag, firstn_O, app_nil_r, <- Lp'. apply firstn_all. }
  assert (Ln : length (array 82 (payload ++ rest)) = 82%nat).
  { unfold array. rewrite app_length, repeat_length, app_length. lia. }
  set (arr := array 82 (payload ++ rest)) in *. clearbody arr.
  assert (S : forall i j, (j <= 78)%nat -> slice i j arr = slice i j payload).
  { intros i j Hj. rewrite (slice_first i j 78 arr Hj), A. reflexivity. }
  rewrite (S 0%nat 4%nat), (S 5%nat 9%nat), (S 9%nat 13%nat), (S 13%nat 45%nat), (S 45%nat 78%nat) by lia.
  assert (X : @index error N arr 4 = index payload 4).
  { unfold index. rewrite <- A, <- (firstn_skipn 78 arr) at 1. rewrite nth_error_app1; [reflexivity|]. rewrite A, Lp'. cbn. lia. }
  rewrite X, Ln.
  set (P := (let* cs := ok_or (str_get_to 4 s) EDecode in _)). destruct P as [pre|e|]; cbn [bind];
    [|split; [reflexivity|intros x H; discriminate H]..].
  destruct (index payload 4) as [d|e|]; cbn [bind fst snd]; [|split; [reflexivity|intros x H; discriminate H]..].
  split; [reflexivity|]. intros e _. reflexivity.
Qed.

(** C96.  The model with the buffer gives the results of the model used everywhere else. *)
Lemma c96_same_results : forall s : str, fst (ek_from_str_mem s) = ek_from_str s.
Proof.
  intros s. apply mem_cases.
Qed.
(** What holds: the copy is wiped when the text is accepted.  Missing: the same for rejected texts. *)
Lemma c96_wiped_partial : forall (s : str) (e : extended_key), ek_from_str s = Ok e ->
  snd (ek_from_str_mem s) = repeat 0 82.
Proof.
  intros s. apply mem_cases.
Qed.
(** What fails: every text of 78 bytes with a wrong checksum is rejected and leaves the 78 bytes behind. *)
Lemma c96_wrong_checksum_leaves_key : forall (payload sum : bytes) (s : str),
  has_bytes 78 payload -> has_bytes 4 sum -> sum <> firstn 4 (sha256 (sha256 payload)) -> is_base58 (payload ++ sum) s ->
  ek_from_str s = Err EBase58 /\ snd (ek_from_str_mem s) = payload ++ sum.
Proof.
  intros payload sum s [Lp Bp] [Ls Bs] Hs I. assert (A : Forall (fun c => c < 128) s) by (eapply base58_ascii, I).
  assert (D : decode_into 82 (utf8 s) = Ok (payload ++ sum)).
  { apply decode_iff. rewrite utf8_ascii by exact A. split; [apply bytes_ok_app; auto|]. split; [exact I|].
    unfold len. rewrite app_length, Lp, Ls. reflexivity. }
  assert (C : decode_check_into 82 (utf8 s) = Err InvalidB58Checksum).
  { unfold decode_check_into. rewrite D. cbn [bind]. unfold len. rewrite app_length, Lp, Ls. change (78 + 4 - 4)%nat with 78%nat.
    change (N.of_nat (78 + 4) <? 4) with false. cbv iota zeta.
    rewrite firstn_app, skipn_app, Lp, Nat.sub_diag. rewrite <- Lp, firstn_all, skipn_all. cbn [firstn skipn app].
    rewrite app_nil_r. destruct (bytes_eqb (check_bytes payload) sum) eqn:E; [|reflexivity].
    apply bytes_eqb_spec in E. destruct (Hs (eq_sym E)). }
  assert (F : ek_from_str s = Err EBase58).
  { unfold ek_from_str. change (N.of_nat BYTE_SIZE + 4) with 82. rewrite C. reflexivity. }
  split; [exact F|]. unfold ek_from_str_mem. change (N.of_nat BYTE_SIZE + 4) with 82.
  change (BYTE_SIZE + 4)%nat with 82%nat.
  pose proof (decode_check_mem_fst 82 (utf8 s)) as G. pose proof (decode_check_mem_buffer 82 (utf8 s) _ D) as W.
  destruct (decode_check_mem 82 (utf8 s)) as [r w]. cbn [fst snd] in G, W. rewrite G, C. cbn [from_b58 map_err snd]. rewrite W.
  apply array_full. rewrite app_length, Lp, Ls. reflexivity.
Qed.
Lemma decode_loop_mem_prefix cap rest : forall ds out o, Forall (fun d => d < 58) ds -> convert 58 256 cap ds out = Ok o ->
  decode_loop_mem cap (map b58_char ds ++ rest) out = decode_loop_mem cap rest o.
Proof.
  induction ds as [|d ds IH]; intros out o F C.
  - cbn [convert] in C. injection C as <-. reflexivity.
  - apply Forall_cons_iff in F. destruct F as [Fd F]. destruct (b58_digit_complete d Fd) as [D L]. cbn [map app decode_loop_mem].
    destruct (N.ltb_spec 127 (b58_char d)) as [X|_]; [exfalso; clear -L X; lia|]. rewrite D. cbn [convert] in C.
    destruct (mul_add 58 256 out d) as [o1 c]. apply bind_ok in C. destruct C as (o2 & P & C).
    pose proof (push_carry_mem_fst 256 cap (N.size_nat c) o1 c) as Q. rewrite P in Q.
    destruct (push_carry_mem (N.size_nat c) 256 cap o1 c) as [r b]. cbn [fst] in Q. rewrite Q. apply IH; assumption.
Qed.
Lemma bad_first c rest cap o : ~ In c base58_symbols -> exists e,
  decode_loop_mem cap (utf8 (c :: rest)) o = (Err e, o).
Proof.
  intros H. unfold utf8. cbn [flat_map]. unfold utf8_char.
  assert (Big : forall b l, 127 < b -> exists e, decode_loop_mem cap (b :: l) o = (Err e, o)).
  { intros b l Hb. cbn [decode_loop_mem]. destruct (N.ltb_spec 127 b); [|lia]. eexists. reflexivity. }
  destruct (c <? 0x80) eqn:E1; cbn [app].
  - cbn [decode_loop_mem]. destruct (127 <? c) eqn:E; [eexists; reflexivity|]. destruct (b58_digit c) as [d|] eqn:D; [|eexists; reflexivity].
    exfalso. apply H. destruct (b58_digit_sound c d D) as [L <-]. rewrite b58_char_symbols. apply nth_In. change (length base58_symbols) with 58%nat. lia.
  - destruct (c <? 0x800) eqn:E2; [apply Big; lia|]. destruct (c <? 0x10000) eqn:E3; apply Big; lia.
Qed.
(** A text that is rejected because of a character leaves everything before that character behind: the number
    that it denotes, least significant byte first. *)
Lemma c96_bad_character_leaves_prefix : forall (ds : list N) (c : N) (rest : str),
  Forall (fun d => d < 58) ds -> digits_val 58 ds < 256 ^ 82 -> ~ In c base58_symbols ->
  let s := map (fun d => nth (N.to_nat d) base58_symbols 0) ds ++ c :: rest in
  ek_from_str s = Err EBase58
  /\ length (snd (ek_from_str_mem s)) = 82%nat /\ digits_val 256 (rev (snd (ek_from_str_mem s))) = digits_val 58 ds.
Proof.
  intros ds c rest F V Hc s. rewrite <- (c96_same_results s).
  assert (M : map (fun d => nth (N.to_nat d) base58_symbols 0) ds = map b58_char ds).
  { apply map_ext. intros d. symmetry. apply b58_char_symbols. }
  assert (U : utf8 s = map b58_char ds ++ utf8 (c :: rest)).
  { unfold s. rewrite M. unfold utf8. rewrite flat_map_app. f_equal. apply utf8_ascii. apply Forall_forall. intros x Hx.
    apply in_map_iff in Hx. destruct Hx as (d & <- & Hd). rewrite Forall_forall in F. apply b58_digit_complete, F, Hd. }
  pose proof (convert_ok 58 256 82 eq_refl eq_refl ds [] (Forall_nil _) (normal_nil 256)) as C.
  destruct (convert 58 256 82 ds []) as [o|e|] eqn:E; [|exfalso|destruct C].
  2:{ destruct C as [_ C]. cbn [lev] in C. rewrite N.mul_0_l, N.add_0_l in C. apply N.lt_nge in V. exact (V C). }
  destruct C as (Fo & _ & Vo & Lo). cbn [lev] in Vo. rewrite N.mul_0_l, N.add_0_l in Vo.
  assert (Ho : (length o <= 82)%nat). { pose proof (Lo (N.le_0_l 82)) as K. unfold len in K. clear -K. lia. }
  destruct (bad_first c rest 82 o Hc) as [e B]. pose proof (decode_loop_mem_prefix 82 (utf8 (c :: rest)) ds [] o F E) as P.
  rewrite <- U, B in P.
  assert (Q : ek_from_str_mem s = (Err EBase58, array 82 o)).
  { unfold ek_from_str_mem. change (N.of_nat BYTE_SIZE + 4) with 82. change (BYTE_SIZE + 4)%nat with 82%nat.
    unfold decode_check_mem, decode_into_mem. rewrite P. reflexivity. }
  rewrite Q. cbn [fst snd]. split; [reflexivity|]. unfold array. split; [rewrite app_length, repeat_length; clear -Ho; lia|].
  rewrite <- lev_rev, rev_involutive. rewrite lev_app.
  assert (Z : forall k, lev 256 (repeat 0 k) = 0) by (induction k as [|k IH]; [reflexivity|cbn [repeat lev]; rewrite IH; reflexivity]).
  rewrite Z, N.mul_0_r, N.add_0_r. exact Vo.
Qed.
(** A text with a right checksum for too few bytes is rejected and leaves them behind. *)
Lemma c96_wrong_length_leaves_payload : forall (payload : bytes) (s : str), bytes_ok payload -> len payload < 78 -> base58check payload s ->
  ek_from_str s = Err EDecode
  /\ snd (ek_from_str_mem s) = payload ++ firstn 4 (sha256 (sha256 payload)) ++ repeat 0 (78 - length payload).
Proof.
  intros payload s B L I. rewrite <- (c96_same_results s). assert (A : Forall (fun c => c < 128) s) by (eapply base58_ascii, I).
  assert (C : decode_check_into 82 (utf8 s) = Ok payload).
  { apply decode_check_iff. split; [exact B|]. rewrite utf8_ascii by exact A. split; [exact I|]. clear -L. lia. }
  assert (D : decode_into 82 (utf8 s) = Ok (payload ++ check_bytes payload)).
  { apply decode_iff. split; [apply bytes_ok_app; split; [exact B|apply check_bytes_ok]|]. rewrite utf8_ascii by exact A.
    split; [exact I|]. rewrite len_app. unfold len in *. rewrite check_bytes_length. clear -L. lia. }
  assert (Q : ek_from_str_mem s = (Err EDecode, array 82 (payload ++ check_bytes payload))).
  { unfold ek_from_str_mem. change (N.of_nat BYTE_SIZE + 4) with 82. change (BYTE_SIZE + 4)%nat with 82%nat. change (N.of_nat BYTE_SIZE) with 78.
    pose proof (decode_check_mem_fst 82 (utf8 s)) as G. pose proof (decode_check_mem_buffer 82 (utf8 s) _ D) as W.
    destruct (decode_check_mem 82 (utf8 s)) as [r w]. cbn [fst snd] in G, W. rewrite G, C. cbn [from_b58 map_err]. subst w.
    destruct (N.eqb_spec (len payload) 78) as [X|_]; [exfalso; clear -L X; lia|]. reflexivity. }
  rewrite Q. cbn [fst snd]. split; [reflexivity|]. unfold array. rewrite <- app_assoc. fold (check_bytes payload). f_equal. f_equal. f_equal.
  rewrite app_length, check_bytes_length. unfold len in L. clear -L. lia.
Qed.
(** Mistyping the last letter of the private root key of the first test vector of BIP32. *)
Definition ex_typo : str := firstn 110 ex_text ++ lit "j".
Lemma c96_always_wiped_refuted : ~ forall s : str, snd (ek_from_str_mem s) = repeat 0 82.
Proof.
  intros H. specialize (H ex_typo). vm_compute in H. discriminate H.
Qed.
Example c96_example : ek_from_str ex_text = Ok ex_ext /\ snd (ek_from_str_mem ex_text) = repeat 0 82
  /\ ek_from_str ex_typo = Err EBase58 /\ slice 45 78 (snd (ek_from_str_mem ex_typo)) = key_bytes ex_ext
  /\ digits_val 256 (rev (snd (ek_from_str_mem (removelast ex_text ++ lit "0")))) = digits_val 256 (snd (ek_from_str_mem ex_typo)) / 58.
Proof.
  split; [apply c37_example|]. split; [apply (c96_wiped_partial _ ex_ext), c37_example|]. split; [vm_compute; reflexivity|]. split; vm_compute; reflexivity.
Qed.

(** C97 *)
Lemma c97_writer_wipes : forall e : extended_key, valid_ext e ->
  fst (write_base58_mem e) = write_base58 e /\ fst (snd (write_base58_mem e)) = repeat 0 78.
Proof.
  intros e V. pose proof (layout_bytes _ _ _ _ (ek_payload_layout e V)) as H. destruct (encode_check_fits _ H) as (s & E & _).
  unfold write_base58_mem, write_base58. change MAX_BASE58_SIZE with 112. rewrite E. cbn [from_b58 map_err bind fst snd].
  rewrite (proj1 H). split; reflexivity.
Qed.
Example c97_example : valid_ext ex_ext /\ fst (write_base58_mem ex_ext) = Ok ex_text.
Proof.
  split; [apply ex_ext_ok|]. rewrite (proj1 (c97_writer_wipes _ ex_ext_ok)). apply c35_example.
Qed.

(** C98: formatting leaves the whole text behind, which is the key. *)
Lemma c98_display_leaves_text : forall (e : extended_key) (s : str), valid_ext e -> ek_to_string e = Ok s ->
  fst (ek_display_mem e) = Ok s /\ snd (ek_display_mem e) = s ++ repeat 0 (112 - length s).
Proof.
  intros e s V H. unfold ek_to_string in H. destruct (write_base58 e) as [t|x|] eqn:W; [|discriminate H..]. injection H as ->.
  pose proof W as W'. unfold write_base58 in W'. unfold ek_display_mem, write_base58_mem.
  apply bind_ok in W'. destruct W' as (t & E & F). rewrite E. unfold from_utf8 in F |- *.
  destruct (forallb (fun c => c <? 128) t); [|discriminate F]. cbn [ok_or] in F |- *. injection F as ->. split; reflexivity.
Qed.
Lemma c98_display_wipes_refuted : ~ forall e : extended_key, valid_ext e -> snd (ek_display_mem e) = repeat 0 112.
Proof.
  intros H. specialize (H ex_ext ex_ext_ok). rewrite (proj2 (c98_display_leaves_text _ _ ex_ext_ok ex_text_ok)) in H.
  vm_compute in H. discriminate H.
Qed.
Example c98_example : ek_to_string ex_ext = Ok ex_text /\ firstn 111 (snd (ek_display_mem ex_ext)) = ex_text
  /\ ek_from_str ex_text = Ok ex_ext.
Proof.
  split; [apply ex_text_ok|]. split; [|apply c37_example].
  rewrite (proj2 (c98_display_leaves_text _ _ ex_ext_ok ex_text_ok)). vm_compute. reflexivity.
Qed.
