(** The two word lists as literal terms, checked equal to what the code reads from the text files, and the
    facts about them that a finite check settles. *)
From Coq Require Import FMapPositive.
From Verif Require Import Outcome Bytes Str Nfkd NfkdData ModelBip39 SpecBip39 Gb18030Data.
Open Scope N_scope.

Definition words_en : list str := Eval vm_compute in wordlist English.
Definition words_zh : list str := Eval vm_compute in wordlist ChineseSimplified.
Definition words (l : language) : list str :=
  match l with English => words_en | ChineseSimplified => words_zh end.

Lemma wordlist_en : wordlist English = words_en.
Proof. vm_compute. reflexivity. Qed.
Lemma wordlist_zh : wordlist ChineseSimplified = words_zh.
Proof. vm_compute. reflexivity. Qed.
Lemma bip39_list_en : bip39_list English = words_en.
Proof. vm_compute. reflexivity. Qed.
Lemma bip39_list_zh : bip39_list ChineseSimplified = words_zh.
Proof. vm_compute. reflexivity. Qed.

Lemma wordlist_words l : wordlist l = words l.
Proof. destruct l; [apply wordlist_en|apply wordlist_zh]. Qed.
Lemma bip39_list_words l : bip39_list l = words l.
Proof. destruct l; [apply bip39_list_en|apply bip39_list_zh]. Qed.

Lemma words_length l : length (words l) = 2048%nat.
Proof. destruct l; vm_compute; reflexivity. Qed.

(** ** No duplicates *)
Fixpoint chain_lt (l : list str) : bool :=
  match l with
  | [] => true
  | x :: l' => match l' with [] => true | y :: _ => match str_cmp x y with Lt => chain_lt l' | _ => false end end
  end.
Lemma words_en_sorted : chain_lt words_en = true.
Proof. vm_compute. reflexivity. Qed.

Definition key (c : N) : positive := N.succ_pos c.
Lemma key_inj a b : key a = key b -> a = b.
Proof.
  unfold key. intros H. apply (f_equal Npos) in H. rewrite !N.succ_pos_spec in H. lia.
Qed.

Fixpoint distinct (seen : PositiveMap.t unit) (l : list N) : bool :=
  match l with
  | [] => true
  | c :: l' => match PositiveMap.find (key c) seen with
               | Some _ => false
               | None => distinct (PositiveMap.add (key c) tt seen) l'
               end
  end.
Lemma distinct_nodup seen l : distinct seen l = true ->
  NoDup l /\ forall c, In c l -> PositiveMap.find (key c) seen = None.
Proof.
  revert seen; induction l as [|c l IH]; intros seen H; cbn in H.
  - split; [constructor|intros c []].
  - destruct (PositiveMap.find (key c) seen) eqn:E; [discriminate|].
    destruct (IH _ H) as [H1 H2].
    split.
    + constructor; [|exact H1]. intros Hin. specialize (H2 c Hin). rewrite PositiveMap.gss in H2. discriminate.
    + intros d [->|Hd]; [exact E|]. specialize (H2 d Hd).
      destruct (Pos.eq_dec (key d) (key c)) as [Ek|Ek].
      * rewrite Ek, PositiveMap.gss in H2. discriminate.
      * rewrite PositiveMap.gso in H2 by exact Ek. exact H2.
Qed.

Definition head1 (w : str) : N := match w with [c] => c | _ => 0 end.
Lemma words_zh_single : forallb (fun w => match w with [_] => true | _ => false end) words_zh = true.
Proof. vm_compute. reflexivity. Qed.
Lemma words_zh_distinct : distinct (PositiveMap.empty _) (map head1 words_zh) = true.
Proof. vm_compute. reflexivity. Qed.

(** ** Characters *)
Lemma words_en_letters : forallb (fun w => forallb (fun c => (97 <=? c) && (c <=? 122)) w) words_en = true.
Proof. vm_compute. reflexivity. Qed.
Lemma words_en_lengths : forallb (fun w => (3 <=? len w) && (len w <=? 8)) words_en = true.
Proof. vm_compute. reflexivity. Qed.
(** All Chinese characters lie in the CJK Unified Ideographs block. *)
Lemma words_zh_cjk : forallb (fun w => forallb (fun c => (0x4E00 <=? c) && (c <=? 0x9FFF)) w) words_zh = true.
Proof. vm_compute. reflexivity. Qed.

(** ** Decompositions: no key below 160 and none in the CJK Unified Ideographs block; no decomposition is empty;
    a decomposition containing a space belongs to a white-space character or contains a character that
    occurs in no word. *)
Definition not_word_char (c : N) : bool :=
  negb (c =? 32) && ((c <? 97) || ((122 <? c) && (c <? 0x4E00)) || (0x9FFF <? c)).
Definition decomp_entry_ok (e : N * str) : bool :=
  let (k, d) := e in
  (160 <=? k) && ((k <? 0x4E00) || (0x9FFF <? k))
  && match d with [] => false | _ => true end
  && (negb (existsb (N.eqb 32) d) || is_whitespace k || existsb not_word_char d).
Lemma decomp_table_ok : forallb decomp_entry_ok decomp_table = true.
Proof. vm_compute. reflexivity. Qed.

(** Combining classes: none below 160, none in the CJK block. *)
Definition ccc_entry_ok (e : N * N * N) : bool :=
  let '(a, b, v) := e in (160 <=? a) && ((b <? 0x4E00) || (0x9FFF <? a)) && (a <=? b).
Lemma ccc_table_ok : forallb ccc_entry_ok ccc_table = true.
Proof. vm_compute. reflexivity. Qed.

(** Association lists as finite maps. *)
Definition build {A} (l : list (N * A)) : PositiveMap.t A :=
  fold_right (fun e m => PositiveMap.add (key (fst e)) (snd e) m) (PositiveMap.empty A) l.
Lemma build_find {A} c (l : list (N * A)) : PositiveMap.find (key c) (build l) = assocN c l.
Proof.
  induction l as [|[k v] l IH]; cbn [build fold_right assocN fst snd].
  - apply PositiveMap.gempty.
  - destruct (N.eqb_spec c k) as [->|E]; [apply PositiveMap.gss|].
    rewrite PositiveMap.gso; [exact IH|]. intros H. apply E, key_inj, H.
Qed.

(** Every character of a decomposition is itself indecomposable and not a Hangul syllable. *)
Definition closed_entry (m : PositiveMap.t str) (e : N * str) : bool :=
  forallb (fun c => negb (is_hangul c) && match PositiveMap.find (key c) m with None => true | Some _ => false end) (snd e).
Definition decomp_closed : bool := let m := build decomp_table in forallb (closed_entry m) decomp_table.
Lemma decomp_table_closed : decomp_closed = true.
Proof. vm_compute. reflexivity. Qed.

(** Nothing in the ranges of Hangul letters decomposes. *)
Lemma decomp_table_jamo : forallb (fun e => negb ((0x1100 <=? fst e) && (fst e <=? 0x11FF))) decomp_table = true.
Proof. vm_compute. reflexivity. Qed.

(** GB18030 gives two bytes for every Chinese list character. *)
Definition covers {A} (l : list (N * A)) (ws : list str) : bool :=
  let m := build l in
  forallb (fun w => match PositiveMap.find (key (head1 w)) m with Some _ => true | None => false end) ws.
Lemma covers_spec {A} (l : list (N * A)) ws w : covers l ws = true -> In w ws -> assocN (head1 w) l <> None.
Proof.
  unfold covers. intros H Hw. rewrite forallb_forall in H. specialize (H w Hw). rewrite build_find in H.
  intros E. rewrite E in H. discriminate.
Qed.
Lemma gb_table_covers : covers gb_table words_zh = true.
Proof. vm_compute. reflexivity. Qed.
