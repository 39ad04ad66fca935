(** Proofs about the kinds of text (restated in PropKinds.v). *)
From Coq Require Import String.
From Verif Require Import Outcome Bytes Str Hash Base58 ModelBip39 SpecBip39 ModelLangs SpecLangs ModelBip32 SpecBip32 SpecKinds
  Bip39Proofs Base58Proofs ExtProofs PathThms KeyTextThms LangThms.
Open Scope N_scope.

Definition plain_char (c : N) : Prop := 33 <= c <= 126.
Definition shape (s : str) (k : kind) : Prop :=
  match k with
  | KPhrase => exists c, In c s /\ is_whitespace c = true
  | KKey => Forall (fun c => letter c \/ digit_char c) s /\ exists a b c d s', s = a :: b :: c :: d :: s' /\ letter a /\ letter b
  | KPath => Forall plain_char s /\ exists s', s = 109 :: s' /\ (s' = [] \/ exists s'', s' = slash :: s'')
  | KChild => Forall plain_char s /\ exists c s', s = c :: s' /\ (c = plus_sign \/ digit_char c)
  | KCode => Forall plain_char s /\ exists a b s', s = a :: b :: s' /\ letter a /\ letter b /\ (s' = [] \/ In 45 s')
  end.
Lemma split_one p s : (forall c, In c s -> p c = false) -> split_pred p s = [s].
Proof.
  induction s as [|c s IH]; intros H; cbn [split_pred]; [reflexivity|]. rewrite (H c (or_introl eq_refl)), IH; [reflexivity|]. intros d D. apply H. right. exact D.
Qed.
Lemma whitespace_if s : (2 <= length (split_whitespace s))%nat -> exists c, In c s /\ is_whitespace c = true.
Proof.
  intros L. destruct (existsb is_whitespace s) eqn:E; [apply existsb_exists in E; exact E|]. exfalso.
  unfold split_whitespace in L. rewrite split_one in L.
  - cbn [filter] in L. destruct s; cbn in L; lia.
  - intros c C. destruct (is_whitespace c) eqn:F; [|reflexivity]. assert (X : existsb is_whitespace s = true) by (apply existsb_exists; exists c; split; assumption). congruence.
Qed.
Lemma space_if s : (2 <= length (split_char 32 s))%nat -> exists c, In c s /\ is_whitespace c = true.
Proof.
  intros L. destruct (existsb (N.eqb 32) s) eqn:E.
  - apply existsb_exists in E. destruct E as (c & C & E). apply N.eqb_eq in E. subst c. exists 32. split; [exact C|reflexivity].
  - exfalso. unfold split_char in L. rewrite split_one in L; [cbn in L; lia|]. intros c C. destruct (32 =? c) eqn:F; [|reflexivity]. apply N.eqb_eq in F. subst c.
    assert (X : existsb (N.eqb 32) s = true) by (apply existsb_exists; exists 32; split; [exact C|reflexivity]). congruence.
Qed.
Lemma sentence_many l ws ent : sentence_all l ws ent -> (2 <= length ws)%nat.
Proof.
  intros (_ & L & idx & F & _ & E). assert (X : length (flat_map (bits_of 11) idx) = (11 * length idx)%nat).
  { clear. induction idx as [|i idx IH]; [reflexivity|]. cbn [flat_map]. rewrite app_length, IH, bits_of_length. cbn. lia. }
  rewrite E in X. rewrite <- (Forall2_length _ _ _ F). unfold with_checksum in X. rewrite app_length, bits_of_bytes_length in X. unfold legal_entropy, len in L. cbn [In] in L. lia.
Qed.
Lemma base58_chars data s : is_base58 data s -> Forall (fun c => letter c \/ digit_char c) s.
Proof.
  intros (ds & F & -> & _). apply Forall_forall. intros c C. apply in_map_iff in C. destruct C as (d & <- & D). rewrite Forall_forall in F. specialize (F d D).
  assert (A : forallb (fun c => is_letter c || ((48 <=? c) && (c <=? 57))) base58_symbols = true) by (vm_compute; reflexivity).
  rewrite forallb_forall in A. specialize (A (nth (N.to_nat d) base58_symbols 0)). assert (I : In (nth (N.to_nat d) base58_symbols 0) base58_symbols).
  { apply nth_In. change (length base58_symbols) with 58%nat. lia. }
  specialize (A I). unfold is_letter in A. unfold letter, digit_char. repeat (rewrite ?orb_true_iff, ?andb_true_iff, ?N.leb_le in A). lia.
Qed.
Lemma reads_shape s k : reads s k -> shape s k.
Proof.
  destruct k; cbn [reads shape].
  - intros (l & [(m & H)|H]).
    + pose proof (c120_from_phrase s l) as C. cbv zeta in C. rewrite H in C. destruct C as (_ & _ & C). apply sentence_many in C. rewrite map_length in C. apply whitespace_if, C.
    + pose proof (c120_validate s l) as C. rewrite H in C. destruct C as (ent & C). apply sentence_many in C. apply space_if, C.
  - intros H. destruct (c38_parsing_checks_checksum s) as (_ & C & _). apply C in H. destruct H as (payload & Hp & B & F).
    split; [eapply base58_chars, B|]. assert (L : (4 <= length s)%nat) by (destruct (check_data _ Hp) as [B' L']; pose proof (base58_longer _ _ B' B); lia).
    destruct s as [|a [|b [|c [|d s']]]]; try (cbn in L; lia). exists a, b, c, d, s'. split; [reflexivity|]. cbn [firstn] in F. inversion F as [|? ? A F1]; subst. inversion F1 as [|? ? A1 F2]; subst. split; assumption.
  - intros (p & H). apply c33_path_grammar in H. destruct H as (comps & -> & F). split.
    + constructor; [unfold plain_char; lia|]. apply Forall_forall. intros c C. apply in_flat_map in C. destruct C as (t & T & C).
      destruct C as [<-|C]; [unfold plain_char, slash; lia|]. apply in_split in T. destruct T as (l1 & l2 & ->). apply Forall2_app_inv_l in F. destruct F as (? & ? & _ & F & _).
      inversion F as [|? ? ? ? (sign & ds & h & S & _ & D & _ & E & _)]; subst. rewrite Forall_forall in D.
      apply in_app_or in C. destruct C as [C|C]; [destruct S as [->| ->]; [destruct C|destruct C as [<-|[]]; unfold plain_char, plus_sign; lia]|].
      apply in_app_or in C. destruct C as [C|C]; [apply D in C; unfold digit_char in C; unfold plain_char; lia|]. destruct h; [destruct C as [<-|[]]; unfold plain_char, apostrophe; lia|destruct C].
    + eexists. split; [reflexivity|]. destruct comps as [|t comps]; [left; reflexivity|right; eexists; reflexivity].
  - intros (c & H). apply c30_child_grammar in H. destruct H as (sign & ds & h & S & N & D & _ & -> & _). split.
    + rewrite Forall_forall in D. apply Forall_forall. intros x C.
      apply in_app_or in C. destruct C as [C|C]; [destruct S as [->| ->]; [destruct C|destruct C as [<-|[]]; unfold plain_char, plus_sign; lia]|].
      apply in_app_or in C. destruct C as [C|C]; [apply D in C; unfold digit_char in C; unfold plain_char; lia|]. destruct h; [destruct C as [<-|[]]; unfold plain_char, apostrophe; lia|destruct C].
    + destruct S as [->| ->]; [|eexists _, _; split; [reflexivity|left; reflexivity]]. destruct ds as [|x ds]; [contradiction|]. inversion D; subst. eexists _, _. split; [reflexivity|right; assumption].
  - intros (l & H). apply c122_language_codes in H. unfold same_up_to_case in H.
    assert (P : Forall plain_char s).
    { assert (Q : Forall (fun c => 45 <= c <= 122) (code_of l)) by (destruct l as [[]| | | | | |]; cbn [code_of lit]; cbv -[N.le]; repeat constructor; lia).
      revert Q H. generalize (code_of l). clear. intros t. revert s. induction t as [|d t IH]; intros s Q H; inversion H as [|c ? s' ? E H']; subst; constructor.
      - inversion Q; subst. unfold plain_char. lia.
      - apply IH; [inversion Q; assumption|exact H']. }
    split; [exact P|].
    assert (Q : exists a b t, code_of l = a :: b :: t /\ 97 <= a <= 122 /\ 97 <= b <= 122 /\ (t = [] \/ exists t', t = 45 :: t')).
    { destruct l as [[]| | | | | |]; eexists _, _, _; (split; [cbv; reflexivity|]); (split; [lia|]); (split; [lia|]); ((left; reflexivity) || (right; eexists; reflexivity)). }
    destruct Q as (a & b & t & E & A & B & T). rewrite E in H. inversion H as [|a' ? s1 ? A' H1]; subst. inversion H1 as [|b' ? s2 ? B' H2]; subst.
    exists a', b', s2. split; [reflexivity|]. split; [unfold letter; lia|]. split; [unfold letter; lia|]. destruct T as [->|(t' & ->)]; [inversion H2; left; reflexivity|].
    inversion H2 as [|x ? s3 ? X H3]; subst. right. left. lia.
Qed.
Lemma whitespace_not_plain c : is_whitespace c = true -> ~ plain_char c.
Proof.
  unfold is_whitespace, plain_char. intros H. repeat (rewrite ?orb_true_iff, ?andb_true_iff, ?N.leb_le, ?N.eqb_eq in H). lia.
Qed.
Lemma alnum_plain s : Forall (fun c => letter c \/ digit_char c) s -> Forall plain_char s.
Proof. apply Forall_impl. intros c. unfold letter, digit_char, plain_char. lia. Qed.
Lemma phrase_only s k : shape s KPhrase -> shape s k -> k = KPhrase.
Proof.
  intros (c & C & W) H. apply whitespace_not_plain in W. destruct k; [reflexivity|exfalso..]; cbn [shape] in H; destruct H as [F _]; try apply alnum_plain in F; rewrite Forall_forall in F; apply W, F, C.
Qed.
Ltac clash := unfold letter, digit_char, plus_sign, slash in *; lia.
Lemma key_only s k : shape s KKey -> shape s k -> k = KPhrase \/ k = KKey.
Proof.
  intros (F & a & b & c & d & s' & -> & A & B) H. destruct k; [left; reflexivity|right; reflexivity|exfalso..]; cbn [shape] in H.
  - destruct H as (_ & t & E & [->|(t' & ->)]); [discriminate E|]. injection E as -> -> _. clash.
  - destruct H as (_ & x & t & E & X). injection E as -> _. clash.
  - destruct H as (_ & x & y & t & E & _ & _ & [->|T]); [discriminate E|]. injection E as -> -> <-. rewrite Forall_forall in F.
    specialize (F 45 (or_intror (or_intror T))). clash.
Qed.
Lemma shape_unique s k k' : shape s k -> shape s k' -> k = k'.
Proof.
  intros H H'. destruct k, k'; try reflexivity; exfalso.
  all: try solve [pose proof (phrase_only _ _ H H') as E; discriminate E | pose proof (phrase_only _ _ H' H) as E; discriminate E
    | pose proof (key_only _ _ H H') as [E|E]; discriminate E | pose proof (key_only _ _ H' H) as [E|E]; discriminate E].
  - destruct H as (_ & t & -> & _), H' as (_ & x & t' & E & X). injection E as <- _. clash.
  - destruct H as (_ & t & -> & [->|(u & ->)]), H' as (_ & x & y & t' & E & X & Y & _); [discriminate E|]. injection E as <- <- _. clash.
  - destruct H as (_ & x & t' & E & X), H' as (_ & t & -> & _). injection E as <- _. clash.
  - destruct H as (_ & x & t & -> & X), H' as (_ & a & b & t' & E & A & _). injection E as -> _. clash.
  - destruct H as (_ & x & y & t' & E & X & Y & _), H' as (_ & t & -> & [->|(u & ->)]); [discriminate E|]. injection E as <- <- _. clash.
  - destruct H as (_ & a & b & t' & E & A & _), H' as (_ & x & t & -> & X). injection E as -> _. clash.
Qed.

(* C152 *)
Lemma c152_kinds_do_not_overlap : forall (s : str) (k k' : kind), reads s k -> reads s k' -> k = k'.
Proof. intros s k k' H H'. exact (shape_unique s k k' (reads_shape s k H) (reads_shape s k' H')). Qed.
Example c152_example : reads (a_phrase ex_fr) KPhrase /\ reads ex_text KKey /\ reads (lit "m/0'") KPath /\ reads (lit "0'") KChild
  /\ reads (lit "ZH-cn") KCode.
Proof.
  split; [|split; [|split; [|split]]].
  - exists French. left. exists ex_fr. exact (proj1 (c120_round_trip ex_fr ex_fr_constructible)).
  - exists ex_ext. exact c37_example.
  - exists [2147483648]. vm_compute. reflexivity.
  - exists 2147483648. vm_compute. reflexivity.
  - exists (Compiled ChineseSimplified). vm_compute. reflexivity.
Qed.
