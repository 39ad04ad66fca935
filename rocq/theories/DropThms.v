(** Proofs about programs with secrets in memory (restated in PropDrop.v). *)
From Coq Require Import String Permutation ZifyBool ZifyNat ZifyN.
From Verif Require Import Outcome Bytes Str Hash Nfkd Secp Base58 ModelBip39 ModelBip32 ModelFreed ModelMemory ModelDrop SpecDrop FreedThms MemoryThms DeriveThms SpecBip32 Bip39Thms KeyTextThms.
Open Scope N_scope.

(** ** Memory *)
Lemma nth_put m a c b : nth_error (put m a c) b =
  (if Nat.eqb b a then (if Nat.ltb a (length m) then Some c else None) else nth_error m b).
Proof.
  revert a b. induction m as [|x m IH]; intros a b; cbn [put length].
  - destruct b; destruct (Nat.eqb _ a); cbn; destruct a; reflexivity.
  - destruct a as [|a]; destruct b as [|b]; cbn [nth_error Nat.eqb]; try reflexivity. rewrite IH.
    replace (Nat.ltb (S a) (S (length m))) with (Nat.ltb a (length m)) by reflexivity. reflexivity.
Qed.
Lemma put_same m a c x : nth_error m a = Some x -> nth_error (put m a c) a = Some c.
Proof.
  intros H. rewrite nth_put, Nat.eqb_refl. assert (a < length m)%nat by (apply nth_error_Some; rewrite H; discriminate).
  destruct (Nat.ltb_spec a (length m)); [reflexivity|lia].
Qed.
Lemma put_other m a c b : b <> a -> nth_error (put m a c) b = nth_error m b.
Proof. intros H. rewrite nth_put. destruct (Nat.eqb_spec b a); [contradiction|reflexivity]. Qed.
Lemma put_length m a c : length (put m a c) = length m.
Proof. revert a. induction m as [|x m IH]; intros [|a]; cbn; try reflexivity. rewrite IH. reflexivity. Qed.

Definition extends (m m' : memory) : Prop := forall a, (a < length m)%nat -> nth_error m' a = nth_error m a.
Lemma extends_refl m : extends m m.
Proof. intros a _. reflexivity. Qed.
Lemma extends_app m t : extends m (m ++ t).
Proof. intros a H. apply nth_error_app1, H. Qed.
Lemma extends_length m m' : extends m m' -> (length m <= length m')%nat.
Proof.
  intros H. destruct (length m) as [|k] eqn:E; [lia|].
  assert (X : nth_error m' k <> None) by (rewrite (H k) by lia; apply nth_error_Some; lia).
  apply nth_error_Some in X. lia.
Qed.
Lemma extends_trans m1 m2 m3 : extends m1 m2 -> extends m2 m3 -> extends m1 m3.
Proof. intros A B a H. rewrite (B a) by (pose proof (extends_length _ _ A); lia). apply A, H. Qed.

Lemma read_stable m m' b : nth_error m' (b_at b) = nth_error m (b_at b) -> read m' b = read m b.
Proof. unfold read. intros ->. reflexivity. Qed.
Lemma read_use m b d : read m b = Some d -> in_use m (b_at b).
Proof. unfold read, in_use. destruct (nth_error m (b_at b)) as [[x [|]]|]; try discriminate. eauto. Qed.
Lemma holds_stable m m' v q : (forall a, In a (blocks v) -> nth_error m' a = nth_error m a) -> holds m v q -> holds m' v q.
Proof.
  intros H. destruct v, q; cbn [holds]; try exact (fun x => x); cbn [blocks] in H; rewrite ?(read_stable m m') by (apply H; cbn; auto);
    exact (fun x => x).
Qed.
Lemma slot_stable m m' o q : (forall a v, o = Some v -> In a (blocks v) -> nth_error m' a = nth_error m a) -> slot m o q -> slot m' o q.
Proof. intros H. destruct o as [v|], q as [q|]; cbn [slot]; try exact (fun x => x). apply holds_stable. intros a. apply H. reflexivity. Qed.

(** ** Variables *)
Lemma nth_moved {A} (vs : list (option A)) x y : nth y (moved vs x) None = (if Nat.eqb y x then None else nth y vs None).
Proof.
  revert x y. induction vs as [|v vs IH]; intros x y; cbn [moved].
  - destruct y; destruct (Nat.eqb _ x); reflexivity.
  - destruct x as [|x], y as [|y]; cbn [nth Nat.eqb]; try reflexivity. apply IH.
Qed.
Lemma moved_length {A} (vs : list (option A)) x : length (moved vs x) = length vs.
Proof. revert x. induction vs as [|v vs IH]; intros [|x]; cbn; try reflexivity. rewrite IH. reflexivity. Qed.
Lemma moved_last {A} (vs : list (option A)) v : moved (vs ++ [v]) (length vs) = vs ++ [None].
Proof. induction vs as [|w vs IH]; cbn; [reflexivity|]. rewrite IH. reflexivity. Qed.
Lemma moved_none {A} (vs : list (option A)) x : nth x vs None = None -> moved vs x = vs.
Proof.
  revert x. induction vs as [|v vs IH]; intros [|x] H; cbn in *; try reflexivity; [rewrite H; reflexivity|]. rewrite IH by exact H. reflexivity.
Qed.
Lemma owned_app vs ws : owned (vs ++ ws) = owned vs ++ owned ws.
Proof. apply flat_map_app. Qed.
Lemma owned_moved vs x v : var vs x = Some v -> Permutation (owned vs) (blocks v ++ owned (moved vs x)).
Proof.
  unfold var. revert x. induction vs as [|w vs IH]; intros [|x] H; cbn in H; try discriminate.
  - subst w. apply Permutation_refl.
  - specialize (IH x H). cbn [moved owned flat_map]. fold (owned vs). fold (owned (moved vs x)).
    eapply Permutation_trans; [apply Permutation_app_head, IH|]. rewrite !app_assoc. apply Permutation_app_tail, Permutation_app_comm.
Qed.
Lemma forall2_moved m vs ps x : Forall2 (slot m) vs ps -> Forall2 (slot m) (moved vs x) (moved ps x).
Proof. intros H. revert x. induction H; intros [|k]; cbn; constructor; auto. exact I. Qed.
Lemma forall2_nth m vs ps x : Forall2 (slot m) vs ps -> slot m (nth x vs None) (nth x ps None).
Proof. intros H. revert x. induction H; intros [|k]; cbn; auto. Qed.

Lemma slots_length m vs ps : Forall2 (slot m) vs ps -> length vs = length ps.
Proof. intros H. induction H; cbn; congruence. Qed.

(** ** The invariant *)
Lemma nodup_app {A} (l l' : list A) : NoDup l -> NoDup l' -> (forall a, In a l -> In a l' -> False) -> NoDup (l ++ l').
Proof.
  intros H H' X. induction H as [|a l Ha H IH]; cbn; [exact H'|]. constructor.
  - intros Y. apply in_app_or in Y. destruct Y as [Y|Y]; [exact (Ha Y)|]. apply (X a); [left; reflexivity|exact Y].
  - apply IH. intros b Hb. apply X. right. exact Hb.
Qed.
Lemma nodup_split {A} (l l' : list A) : NoDup (l ++ l') -> NoDup l /\ NoDup l' /\ forall a, In a l -> In a l' -> False.
Proof.
  induction l as [|a l IH]; cbn; intros H.
  - split; [constructor|]. split; [exact H|]. intros a [].
  - inversion H as [|? ? Ha H']; subst. destruct (IH H') as (A1 & A2 & A3). split.
    + constructor; [|exact A1]. intros Y. apply Ha, in_or_app. left. exact Y.
    + split; [exact A2|]. intros b [<-|Hb] Y; [apply Ha, in_or_app; right; exact Y|exact (A3 b Hb Y)].
Qed.
(** The numbers that fit into the 32 bytes of a private key. *)
Definition key_fits (q : option pure) : Prop :=
  match q with Some (PXPrv x) => (0 <= private_key x < 2 ^ 256)%Z | _ => True end.
Record inv (m : memory) (vs : list (option value)) (ps : list (option pure)) : Prop := Inv {
  i_slots : Forall2 (slot m) vs ps;
  i_nodup : NoDup (owned vs);
  i_use : forall a, in_use m a <-> In a (owned vs);
  i_fits : Forall key_fits ps }.

Lemma use_length m a : in_use m a -> (a < length m)%nat.
Proof. intros [d H]. apply nth_error_Some. rewrite H. discriminate. Qed.
Lemma owned_in vs x v a : var vs x = Some v -> In a (blocks v) -> In a (owned vs).
Proof. intros H Ha. eapply Permutation_in; [apply Permutation_sym, (owned_moved _ _ _ H)|]. apply in_or_app. left. exact Ha. Qed.
Lemma in_owned vs a : In a (owned vs) -> exists x v, var vs x = Some v /\ In a (blocks v).
Proof.
  induction vs as [|o vs IH]; cbn [owned flat_map]; [intros []|]. intros H. apply in_app_or in H. destruct H as [H|H].
  - destruct o as [v|]; [|destruct H]. exists 0%nat, v. split; [reflexivity|exact H].
  - destruct (IH H) as (x & v & E & Ha). exists (S x), v. split; assumption.
Qed.
Lemma slots_stable m m' vs ps : (forall a, In a (owned vs) -> nth_error m' a = nth_error m a) -> Forall2 (slot m) vs ps -> Forall2 (slot m') vs ps.
Proof.
  intros H F. induction F as [|o q vs ps S F IH]; [constructor|]. cbn [owned flat_map] in H. constructor.
  - revert S. apply slot_stable. intros a v -> Ha. apply H. apply in_or_app. left. exact Ha.
  - apply IH. intros a Ha. apply H. apply in_or_app. right. exact Ha.
Qed.

Lemma inv_none m vs ps : inv m vs ps -> inv m (vs ++ [None]) (ps ++ [None]).
Proof.
  intros [S D U F]. constructor.
  - apply Forall2_app; [exact S|]. constructor; [exact I|constructor].
  - rewrite owned_app. cbn. rewrite app_nil_r. exact D.
  - intros a. rewrite owned_app. cbn. rewrite app_nil_r. apply U.
  - apply Forall_app. split; [exact F|]. constructor; [exact I|constructor].
Qed.
Lemma inv_none_inv m vs ps : inv m (vs ++ [None]) (ps ++ [None]) -> inv m vs ps.
Proof.
  intros [S D U F]. rewrite owned_app in *. cbn in D, U. rewrite app_nil_r in *. constructor.
  - apply Forall2_app_inv_l in S. destruct S as (p1 & p2 & S1 & S2 & E). inversion S2 as [|? ? ? ? _ S3]; subst. inversion S3; subst.
    apply app_inj_tail in E. destruct E as [-> _]. exact S1.
  - exact D.
  - exact U.
  - apply Forall_app in F. apply F.
Qed.
Lemma nth_cells (bl : list (list N)) live k c : nth_error (map (fun d => Cell d live) bl) k = Some c -> c_live c = live.
Proof. intros H. apply nth_error_In in H. apply in_map_iff in H. destruct H as (d & <- & _). reflexivity. Qed.
Lemma inv_leave m vs ps bl : inv m vs ps -> inv (leave m bl) vs ps.
Proof.
  intros [S D U F]. constructor; [|exact D| |exact F].
  - revert S. apply slots_stable. intros a Ha. apply extends_app. apply use_length, U, Ha.
  - intros a. rewrite <- U. unfold leave. split; intros [d H].
    + destruct (Nat.lt_ge_cases a (length m)) as [L|L].
      * rewrite nth_error_app1 in H by exact L. exists d. exact H.
      * rewrite nth_error_app2 in H by exact L. apply nth_cells in H. discriminate H.
    + exists d. rewrite nth_error_app1; [exact H|]. apply use_length. exists d. exact H.
Qed.
Lemma use_alloc m bl a : in_use (alloc m bl) a <-> in_use m a \/ (length m <= a < length m + length bl)%nat.
Proof.
  unfold alloc, in_use. destruct (Nat.lt_ge_cases a (length m)) as [L|L].
  - rewrite nth_error_app1 by exact L. split; [auto|]. intros [H|H]; [exact H|lia].
  - rewrite nth_error_app2 by exact L. split.
    + intros [d H]. right. assert (X : nth_error (map (fun d => Cell d true) bl) (a - length m) <> None) by (rewrite H; discriminate).
      apply nth_error_Some in X. rewrite map_length in X. lia.
    + intros [[d H]|H].
      * assert (X : nth_error m a <> None) by (rewrite H; discriminate). apply nth_error_Some in X. lia.
      * destruct (nth_error bl (a - length m)) as [d|] eqn:E.
        -- exists d. exact (map_nth_error (fun d => Cell d true) _ _ E).
        -- apply nth_error_None in E. lia.
Qed.
Lemma inv_alloc m vs ps bl v q : inv m vs ps -> NoDup (blocks v) ->
  (forall a, In a (blocks v) <-> (length m <= a < length m + length bl)%nat) ->
  holds (alloc m bl) v q -> key_fits (Some q) -> inv (alloc m bl) (vs ++ [Some v]) (ps ++ [Some q]).
Proof.
  intros [S D U F] N B H K. assert (O : owned (vs ++ [Some v]) = owned vs ++ blocks v) by (rewrite owned_app; cbn; rewrite app_nil_r; reflexivity).
  constructor.
  - apply Forall2_app; [|constructor; [exact H|constructor]]. revert S. apply slots_stable. intros a Ha. apply extends_app, use_length, U, Ha.
  - rewrite O. apply nodup_app; [exact D|exact N|]. intros a Ha Hb. apply U, use_length in Ha. apply B in Hb. lia.
  - intros a. rewrite O, use_alloc, in_app_iff, U, B. reflexivity.
  - apply Forall_app. split; [exact F|]. constructor; [exact K|constructor].
Qed.

(** ** Dropping *)
(** What dropping a value does to the memory. *)
Record dropped (m : memory) (v : value) (m' : memory) : Prop := Dropped {
  d_length : length m' = length m;
  d_other : forall a, ~ In a (blocks v) -> nth_error m' a = nth_error m a;
  d_wiped : forall a d, In a (protected v) -> nth_error m a = Some (Cell d true) -> nth_error m' a = Some (Cell (repeat 0 (length d)) false);
  d_left : forall a d, In a (blocks v) -> ~ In a (protected v) -> nth_error m a = Some (Cell d true) -> nth_error m' a = Some (Cell d false) }.
Lemma zeroize_some m b d : nth_error m (b_at b) = Some (Cell d true) -> zeroize m b = Some (put m (b_at b) (Cell (repeat 0 (length d)) true)).
Proof. unfold zeroize. intros ->. reflexivity. Qed.
Lemma dealloc_some m b d : nth_error m (b_at b) = Some (Cell d true) -> dealloc m b = Some (put m (b_at b) (Cell d false)).
Proof. unfold dealloc. intros ->. reflexivity. Qed.
Lemma drop_zeroizing_some m b d : nth_error m (b_at b) = Some (Cell d true) -> exists m', drop_zeroizing m b = Some m' /\ length m' = length m
  /\ (forall a, a <> b_at b -> nth_error m' a = nth_error m a) /\ nth_error m' (b_at b) = Some (Cell (repeat 0 (length d)) false).
Proof.
  intros H. unfold drop_zeroizing. rewrite (zeroize_some _ _ _ H).
  assert (H1 := put_same m (b_at b) (Cell (repeat 0 (length d)) true) _ H). rewrite (dealloc_some _ _ _ H1).
  eexists. split; [reflexivity|]. split; [rewrite !put_length; reflexivity|]. split.
  - intros a Ha. rewrite !put_other by exact Ha. reflexivity.
  - eapply put_same, H1.
Qed.
Lemma drop_some m v : NoDup (blocks v) -> (forall a, In a (blocks v) -> in_use m a) -> exists m', drop_value m v = Some m' /\ dropped m v m'.
Proof.
  intros N U. destruct v as [p l e|b|b|b|k d f i c|q d f i c k]; cbn [drop_value blocks] in *.
  - destruct (U (b_at p)) as [dp Hp]; [left; reflexivity|]. destruct (U (b_at e)) as [de He]; [right; left; reflexivity|].
    assert (X : b_at e <> b_at p) by (inversion N as [|? ? A _]; subst; intros Y; apply A; left; exact Y).
    destruct (drop_zeroizing_some m p dp Hp) as (m1 & -> & L1 & O1 & W1).
    destruct (drop_zeroizing_some m1 e de) as (m2 & -> & L2 & O2 & W2); [rewrite O1 by exact X; exact He|].
    exists m2. split; [reflexivity|]. constructor.
    + rewrite L2. exact L1.
    + intros a Ha. rewrite O2, O1; [reflexivity| |]; intros ->; apply Ha; cbn; auto.
    + intros a x [<-|[<-|[]]] Hx.
      * rewrite O2 by (intros Y; apply X; symmetry; exact Y). rewrite Hp in Hx. injection Hx as <-. exact W1.
      * rewrite He in Hx. injection Hx as <-. exact W2.
    + intros a x Ha Hn. exfalso. exact (Hn Ha).
  - destruct (U (b_at b)) as [d H]; [left; reflexivity|]. destruct (drop_zeroizing_some m b d H) as (m1 & E & L1 & O1 & W1).
    unfold drop_zeroizing in E. rewrite E. exists m1. split; [reflexivity|]. constructor; [exact L1| | |].
    + intros a Ha. apply O1. intros ->. apply Ha. left. reflexivity.
    + intros a x [<-|[]] Hx. rewrite H in Hx. injection Hx as <-. exact W1.
    + intros a x Ha Hn. exfalso. exact (Hn Ha).
  - destruct (U (b_at b)) as [d H]; [left; reflexivity|]. rewrite (dealloc_some _ _ _ H). eexists. split; [reflexivity|]. constructor.
    + apply put_length.
    + intros a Ha. apply put_other. intros ->. apply Ha. left. reflexivity.
    + intros a x [].
    + intros a x [<-|[]] _ Hx. rewrite H in Hx. injection Hx as <-. eapply put_same, H.
  - destruct (U (b_at b)) as [d H]; [left; reflexivity|]. destruct (drop_zeroizing_some m b d H) as (m1 & -> & L1 & O1 & W1).
    exists m1. split; [reflexivity|]. constructor; [exact L1| | |].
    + intros a Ha. apply O1. intros ->. apply Ha. left. reflexivity.
    + intros a x [<-|[]] Hx. rewrite H in Hx. injection Hx as <-. exact W1.
    + intros a x Ha Hn. exfalso. exact (Hn Ha).
  - destruct (U (b_at k)) as [dk Hk]; [left; reflexivity|]. destruct (U (b_at c)) as [dc Hc]; [right; left; reflexivity|].
    assert (X : b_at c <> b_at k) by (inversion N as [|? ? A _]; subst; intros Y; apply A; left; exact Y).
    rewrite (dealloc_some _ _ _ Hk). assert (Hc1 : nth_error (put m (b_at k) (Cell dk false)) (b_at c) = Some (Cell dc true)) by (rewrite put_other by exact X; exact Hc).
    rewrite (dealloc_some _ _ _ Hc1). eexists. split; [reflexivity|]. constructor.
    + rewrite !put_length. reflexivity.
    + intros a Ha. rewrite !put_other; [reflexivity| |]; intros ->; apply Ha; cbn; auto.
    + intros a x [].
    + intros a x [<-|[<-|[]]] _ Hx.
      * rewrite put_other by (intros Y; apply X; symmetry; exact Y). rewrite Hk in Hx. injection Hx as <-. eapply put_same, Hk.
      * rewrite Hc in Hx. injection Hx as <-. eapply put_same, Hc1.
  - destruct (U (b_at c)) as [dc Hc]; [left; reflexivity|]. destruct (U (b_at k)) as [dk Hk]; [right; left; reflexivity|].
    assert (X : b_at k <> b_at c) by (inversion N as [|? ? A _]; subst; intros Y; apply A; left; exact Y).
    assert (X' : b_at c <> b_at k) by (intros Y; apply X; symmetry; exact Y).
    rewrite (zeroize_some _ _ _ Hk). set (z := repeat 0 (length dk)).
    assert (Hc1 : nth_error (put m (b_at k) (Cell z true)) (b_at c) = Some (Cell dc true)) by (rewrite put_other by exact X'; exact Hc).
    rewrite (dealloc_some _ _ _ Hc1).
    assert (Hk2 : nth_error (put (put m (b_at k) (Cell z true)) (b_at c) (Cell dc false)) (b_at k) = Some (Cell z true))
      by (rewrite put_other by exact X; eapply put_same, Hk).
    rewrite (dealloc_some _ _ _ Hk2). eexists. split; [reflexivity|]. constructor.
    + rewrite !put_length. reflexivity.
    + intros a Ha. rewrite !put_other; [reflexivity| | |]; intros ->; apply Ha; cbn; auto.
    + intros a x [<-|[]] Hx. rewrite Hk in Hx. injection Hx as <-. eapply put_same, Hk2.
    + intros a x [<-|[<-|[]]] Hn Hx.
      * rewrite put_other by exact X'. rewrite Hc in Hx. injection Hx as <-. eapply put_same, Hc1.
      * exfalso. apply Hn. left. reflexivity.
Qed.
Lemma forall_moved ps x : Forall key_fits ps -> Forall key_fits (moved ps x).
Proof. intros H. revert x. induction H; intros [|k]; cbn; constructor; auto. exact I. Qed.
Lemma inv_drop m vs ps x v : inv m vs ps -> var vs x = Some v ->
  exists m', drop_value m v = Some m' /\ dropped m v m' /\ inv m' (moved vs x) (moved ps x).
Proof.
  intros [S D U F] V. pose proof (owned_moved vs x v V) as P. pose proof (Permutation_NoDup P D) as ND.
  apply nodup_split in ND. destruct ND as (N1 & N2 & N3).
  assert (Hu : forall a, In a (blocks v) -> in_use m a) by (intros a Ha; apply U, (owned_in vs x v a V Ha)).
  destruct (drop_some m v N1 Hu) as (m' & E & Q). exists m'. split; [exact E|]. split; [exact Q|]. constructor.
  - apply forall2_moved with (x := x) in S. revert S. apply slots_stable. intros a Ha. apply (d_other _ _ _ Q). intros Y. exact (N3 a Y Ha).
  - exact N2.
  - intros a. destruct (in_dec Nat.eq_dec a (blocks v)) as [Y|Y].
    + split; [|intros Ha; exfalso; exact (N3 a Y Ha)]. intros [d H]. exfalso. destruct (Hu a Y) as [d' H'].
      destruct (in_dec Nat.eq_dec a (protected v)) as [W|W].
      * rewrite (d_wiped _ _ _ Q a d' W H') in H. discriminate H.
      * rewrite (d_left _ _ _ Q a d' Y W H') in H. discriminate H.
    + assert (Z : in_use m' a <-> in_use m a) by (unfold in_use; rewrite (d_other _ _ _ Q a Y); reflexivity).
      rewrite Z, U. split; intros Ha.
      * apply (Permutation_in _ P) in Ha. apply in_app_or in Ha. destruct Ha as [Ha|Ha]; [contradiction|exact Ha].
      * apply (Permutation_in _ (Permutation_sym P)), in_or_app. right. exact Ha.
  - apply forall_moved, F.
Qed.

(** ** New values *)
Lemma nth_alloc m bl k d : nth_error bl k = Some d -> nth_error (alloc m bl) (length m + k) = Some (Cell d true).
Proof.
  intros H. unfold alloc. rewrite nth_error_app2 by lia. replace (length m + k - length m)%nat with k by lia.
  exact (map_nth_error (fun d => Cell d true) _ _ H).
Qed.
Lemma read_alloc m bl k d n : nth_error bl k = Some d -> read (alloc m bl) (Buf (length m + k) n) = Some (firstn n d).
Proof. intros H. unfold read. cbn [b_at b_len]. rewrite (nth_alloc _ _ _ _ H). reflexivity. Qed.
Lemma read_fresh m bl k d : nth_error bl k = Some d -> read (alloc m bl) (fresh m k d) = Some d.
Proof. intros H. unfold fresh. rewrite (read_alloc _ _ _ _ _ H), firstn_all. reflexivity. Qed.

Inductive trans (m : memory) (vs : list (option value)) (o : op) (m' : memory) (vs' : list (option value)) : Prop :=
| TKeep r : extends m m' -> vs' = vs ++ [r] -> trans m vs o m' vs'
| TDrop x v m1 r : var vs x = Some v -> dropped m v m1 -> extends m1 m' -> vs' = moved vs x ++ [r] -> trans m vs o m' vs'
| TInto x s l e : o = OpIntoPhrase x -> var vs x = Some (OMnemonic s l e) ->
    dropped (alloc m [[]]) (OMnemonic (fresh m 0 []) l e) m' -> vs' = moved vs x ++ [Some (OText s)] -> trans m vs o m' vs'.
Definition good (m : memory) (vs : list (option value)) (o : op) (ps' : list (option pure)) (r : option state) : Prop :=
  exists m' vs', r = Some (State m' vs') /\ inv m' vs' ps' /\ trans m vs o m' vs'.

Definition exactly (v : value) (m : memory) (bl : list (list N)) : Prop :=
  NoDup (blocks v) /\ forall a, In a (blocks v) <-> (length m <= a < length m + length bl)%nat.
Lemma exactly_one (m : memory) (d : list N) (v : value) : blocks v = [(length m + 0)%nat] -> exactly v m [d].
Proof.
  intros E. unfold exactly. rewrite E. cbn [length]. split; [constructor; [intros []|constructor]|].
  intros a. cbn [In]. lia.
Qed.
Lemma exactly_two (m : memory) (d d' : list N) (v : value) : blocks v = [(length m + 0)%nat; (length m + 1)%nat] -> exactly v m [d; d'].
Proof.
  intros E. unfold exactly. rewrite E. cbn [length]. split.
  - constructor; [cbn [In]; lia|]. constructor; [intros []|constructor].
  - intros a. cbn [In]. lia.
Qed.
Lemma good_none m vs ps o m1 : inv m1 vs ps -> extends m m1 -> good m vs o (ps ++ [None]) (ret m1 vs None).
Proof.
  intros I E. exists m1, (vs ++ [None]). split; [reflexivity|]. split; [apply inv_none, I|]. eapply TKeep; [exact E|reflexivity].
Qed.
Lemma good_new m vs ps o m1 bl v q : inv m1 vs ps -> extends m m1 -> exactly v m1 bl -> holds (alloc m1 bl) v q -> key_fits (Some q) ->
  good m vs o (ps ++ [Some q]) (ret (alloc m1 bl) vs (Some v)).
Proof.
  intros I E [N B] H K. exists (alloc m1 bl), (vs ++ [Some v]). split; [reflexivity|]. split; [apply inv_alloc; assumption|].
  eapply TKeep; [|reflexivity]. eapply extends_trans; [exact E|apply extends_app].
Qed.
Lemma good_drop_none m vs ps o x v m1 : inv m1 (moved vs x) (moved ps x) -> var vs x = Some v -> dropped m v m1 ->
  good m vs o (moved ps x ++ [None]) (ret m1 (moved vs x) None).
Proof.
  intros I V D. exists m1, (moved vs x ++ [None]). split; [reflexivity|]. split; [apply inv_none, I|].
  eapply TDrop; [exact V|exact D|apply extends_refl|reflexivity].
Qed.
Lemma good_drop_new m vs ps o x w m1 bl v q : inv m1 (moved vs x) (moved ps x) -> var vs x = Some w -> dropped m w m1 ->
  exactly v m1 bl -> holds (alloc m1 bl) v q -> key_fits (Some q) ->
  good m vs o (moved ps x ++ [Some q]) (ret (alloc m1 bl) (moved vs x) (Some v)).
Proof.
  intros I V D [N B] H K. exists (alloc m1 bl), (moved vs x ++ [Some v]). split; [reflexivity|]. split; [apply inv_alloc; assumption|].
  eapply TDrop; [exact V|exact D|apply extends_app|reflexivity].
Qed.

Lemma new_mnemonic_ok m mn : exactly (snd (new_mnemonic m mn)) m [m_phrase mn; m_entropy mn]
  /\ holds (alloc m [m_phrase mn; m_entropy mn]) (snd (new_mnemonic m mn)) (PMnemonic mn).
Proof.
  split; [apply exactly_two; reflexivity|]. cbn [new_mnemonic snd holds]. split; [apply read_fresh; reflexivity|].
  split; [reflexivity|]. apply read_fresh. reflexivity.
Qed.
Lemma new_xprv_ok m x : exactly (snd (new_xprv m x)) m [private_to_bytes (private_key x); chain_code (xprv_attrs x)]
  /\ holds (alloc m [private_to_bytes (private_key x); chain_code (xprv_attrs x)]) (snd (new_xprv m x)) (PXPrv x).
Proof.
  split; [apply exactly_two; reflexivity|]. cbn [new_xprv snd holds]. split; [apply read_fresh; reflexivity|].
  split; [apply read_fresh; reflexivity|]. split; [reflexivity|]. split; reflexivity.
Qed.
Lemma new_ext_ok m e : exactly (snd (new_ext m e)) m [chain_code (ek_attrs e); key_bytes e]
  /\ holds (alloc m [chain_code (ek_attrs e); key_bytes e]) (snd (new_ext m e)) (PExt e).
Proof.
  split; [apply exactly_two; reflexivity|]. cbn [new_ext snd holds]. split; [reflexivity|]. split; [apply read_fresh; reflexivity|].
  split; [apply read_fresh; reflexivity|]. split; [reflexivity|]. split; reflexivity.
Qed.
Lemma holds_mnemonic m p l e mn : holds m (OMnemonic p l e) (PMnemonic mn) -> read_mnemonic m p l e = Some mn.
Proof. intros (A & -> & B). unfold read_mnemonic. rewrite A, B. destruct mn. reflexivity. Qed.
Lemma holds_ext m q d f i c k e : holds m (OExt q d f i c k) (PExt e) -> read_ext m q d f i c k = Some e.
Proof. intros (-> & A & B & -> & -> & ->). unfold read_ext. rewrite A, B. destruct e as [q0 [] kb]. reflexivity. Qed.
Lemma holds_xprv m k d f i c x : holds m (OXPrv k d f i c) (PXPrv x) -> key_fits (Some (PXPrv x)) -> read_xprv m k d f i c = Some x.
Proof.
  intros (A & B & -> & -> & ->) K. unfold read_xprv. rewrite A, B, be_val_be_bytes. cbn [key_fits] in K.
  rewrite N.mod_small; [rewrite Z2N.id by lia; destruct x as [? []]; reflexivity|].
  change (256 ^ N.of_nat 32) with (Z.to_N (2 ^ 256)). apply Z2N.inj_lt; lia.
Qed.

(** ** Private keys fit into 32 bytes *)
Lemma n_fits : (0 < secp_n < 2 ^ 256)%Z.
Proof. vm_compute. split; reflexivity. Qed.
Lemma new_fits seed x : xprv_new seed = Ok x -> key_fits (Some (PXPrv x)).
Proof. intros H. destruct (xprv_new_valid seed x H) as [K _]. cbn [key_fits]. pose proof n_fits. lia. Qed.
Lemma try_from_fits e x : xprv_try_from e = Ok x -> key_fits (Some (PXPrv x)).
Proof.
  unfold xprv_try_from. destruct (prefix_is_private (ek_prefix e)); [|intros X; discriminate X]. intros H.
  apply bind_ok in H. destruct H as (b & _ & H). destruct (b =? 0); [|discriminate H].
  apply bind_ok in H. destruct H as (k & P & H). injection H as <-. cbn [key_fits private_key].
  unfold private_from_bytes, secret_parse in P. pose proof n_fits as Q.
  destruct ((0 <? Z.of_N (be_val (skipn 1 (key_bytes e))))%Z && (Z.of_N (be_val (skipn 1 (key_bytes e))) <? secp_n)%Z) eqn:B; [|discriminate P].
  injection P as <-. apply andb_true_iff in B. destruct B as [B1 B2]. apply Z.ltb_lt in B1. apply Z.ltb_lt in B2.
  split; [apply N2Z.is_nonneg|]. eapply Z.lt_trans; [exact B2|apply Q].
Qed.
Lemma derive_fits x c y : xprv_derive_child x c = Ok y -> key_fits (Some (PXPrv y)).
Proof.
  unfold xprv_derive_child, xprv_derive_child_with. intros H. apply bind_ok in H. destruct H as (d & _ & H). cbv zeta in H.
  apply bind_ok in H. destruct H as (k & P & H). injection H as <-. cbn [key_fits private_key].
  unfold private_derive_child in P. apply bind_ok in P. destruct P as (t & _ & P). unfold secret_tweak_add in P. cbv zeta in P.
  destruct ((private_key x + t) mod secp_n =? 0)%Z; [discriminate P|]. cbn [ok_or] in P. injection P as <-.
  pose proof n_fits as Q. pose proof (Z.mod_pos_bound (private_key x + t) secp_n (proj1 Q)). lia.
Qed.

(** ** Calls *)
Lemma display_mem e : match fst (ek_display_mem e) with Ok s => write_base58 e = Ok s | _ => forall s, write_base58 e <> Ok s end.
Proof.
  unfold ek_display_mem, write_base58_mem, write_base58. destruct (from_b58 (encode_check_into MAX_BASE58_SIZE (ek_payload e))) as [t|x|]; cbn [bind fst].
  - destruct (from_utf8 t) as [s|]; cbn [ok_or]; [reflexivity|]. intros s X. discriminate X.
  - intros s X. discriminate X.
  - intros s X. discriminate X.
Qed.
Lemma display_ext_ok m e : exists bl, display_ext m e = (leave m bl, match write_base58 e with Ok s => Some s | _ => None end).
Proof.
  unfold display_ext. pose proof (display_mem e) as D. destruct (ek_display_mem e) as [r b]. cbn [fst] in D. exists [b].
  destruct r as [s|x|]; [rewrite D; reflexivity| |]; destruct (write_base58 e) as [s| |]; try reflexivity; exfalso; exact (D s eq_refl).
Qed.
Lemma phrase_entropy_block s l ent v : phrase_to_entropy_mem s l = (Ok ent, v) -> firstn (length ent) (v_data v) = ent.
Proof.
  unfold phrase_to_entropy_mem. destruct (push_words_mem (wordmap_of l) (split_char 32 s) bw_new) as [[w|e|] w']; try (intros X; discriminate X).
  destruct (for_word_count (bw_len w / 11)) as [t|e|]; try (intros X; discriminate X).
  destruct (bw_len w =? total_bits t); try (intros X; discriminate X).
  destruct (bw_into_bytes w) as [b|e|]; try (intros X; discriminate X). intros H. cbv zeta in H.
  assert (E : vec_of 264 b = v) by exact (f_equal snd H). apply (f_equal fst) in H. cbn [fst] in H. subst v. rewrite vec_of_data.
  apply bind_ok in H. destruct H as (x & _ & H). apply bind_ok in H. destruct H as (y & _ & H).
  apply bind_ok in H. destruct H as (z & _ & H). apply bind_ok in H. destruct H as (u & _ & H).
  destruct (y =? u); [|discriminate H]. injection H as <-. rewrite firstn_length.
  destruct (Nat.le_ge_cases (N.to_nat (entropy_bits t / 8)) (length b)) as [L|L].
  - rewrite Nat.min_l by exact L. reflexivity.
  - rewrite Nat.min_r by exact L. rewrite firstn_all, firstn_all2 by exact L. reflexivity.
Qed.
(** A value made and dropped within a call. *)
Lemma inv_temporary m vs ps v q bl : inv m vs ps -> exactly v m bl -> holds (alloc m bl) v q -> key_fits (Some q) -> forall bl',
  exists m', drop_value (leave (alloc m bl) bl') v = Some m' /\ inv m' vs ps /\ extends m m'.
Proof.
  intros I [N B] H K bl'. pose proof (inv_leave _ _ _ bl' (inv_alloc m vs ps bl v q I N B H K)) as J.
  assert (V : var (vs ++ [Some v]) (length vs) = Some v) by (unfold var; rewrite app_nth2, Nat.sub_diag by lia; reflexivity).
  destruct (inv_drop _ _ _ _ _ J V) as (m' & E & D & J'). exists m'. split; [exact E|].
  assert (L : length vs = length ps) by exact (slots_length _ _ _ (i_slots _ _ _ I)).
  rewrite moved_last, L, moved_last in J'. split; [apply inv_none_inv, J'|]. intros a Ha.
  rewrite (d_other _ _ _ D).
  - unfold leave, alloc. rewrite !nth_error_app1; [reflexivity|exact Ha|rewrite app_length; lia].
  - intros X. apply B in X. lia.
Qed.
Lemma from_phrase_good m vs ps s l : inv m vs ps -> good m vs (OpFromPhrase s l) (ps ++ [of_ok PMnemonic (from_phrase s l)]) (from_phrase_op m vs s l).
Proof.
  intros I. pose proof (proj2 (c110_same_results s l)) as F. unfold from_phrase_mem in F. unfold from_phrase_op.
  set (phrase := iter_join (lit " ") (map nfkd (split_whitespace s))) in *.
  destruct (phrase_to_entropy_mem phrase l) as [r v] eqn:E.
  assert (X : forall bl, exists m', drop_zeroizing (alloc (leave m bl) [phrase]) (fresh (leave m bl) 0 phrase) = Some m' /\ inv m' vs ps /\ extends m m').
  { intros bl. destruct (inv_temporary (leave m bl) vs ps (OZeroizing (fresh (leave m bl) 0 phrase)) (PZeroizing phrase) [phrase]
      (inv_leave _ _ _ _ I)) with (bl' := @nil (list N)) as (m' & D & J & Y).
    - apply exactly_one. reflexivity.
    - cbn [holds]. apply read_fresh. reflexivity.
    - exact Logic.I.
    - exists m'. unfold leave at 1 in D. cbn [map] in D. rewrite app_nil_r in D. split; [exact D|]. split; [exact J|].
      eapply extends_trans; [apply extends_app|exact Y]. }
  destruct r as [ent|e|]; cbn [fst] in F; rewrite <- F; cbn [of_ok].
  - apply good_new with (q := PMnemonic (Mnemonic phrase l ent)).
    + apply inv_leave, I.
    + apply extends_app.
    + apply exactly_two. reflexivity.
    + cbn [holds m_phrase m_lang m_entropy]. split; [apply read_fresh; reflexivity|]. split; [reflexivity|].
      rewrite read_alloc with (d := v_data v) by reflexivity. f_equal. eapply phrase_entropy_block. exact E.
    + exact Logic.I.
  - destruct (X (vec_dropped v)) as (m' & D & J & Y). unfold new_text. rewrite D. apply good_none; assumption.
  - destruct (X (vec_dropped v)) as (m' & D & J & Y). unfold new_text. rewrite D. apply good_none; assumption.
Qed.

Fixpoint changed {A} (vs : list (option A)) (x : nat) (v : option A) : list (option A) :=
  match vs, x with
  | [], _ => []
  | _ :: vs', O => v :: vs'
  | w :: vs', S x' => w :: changed vs' x' v
  end.
Lemma moved_changed {A} (vs : list (option A)) x v : moved (changed vs x v) x = moved vs x.
Proof. revert x. induction vs as [|w vs IH]; intros [|x]; cbn; try reflexivity. rewrite IH. reflexivity. Qed.
Lemma moved_app {A} (vs ws : list (option A)) x : (x < length vs)%nat -> moved (vs ++ ws) x = moved vs x ++ ws.
Proof. revert x. induction vs as [|w vs IH]; intros [|x] H; cbn in *; try lia; try reflexivity. rewrite IH by lia. reflexivity. Qed.
Lemma nth_changed {A} (vs : list (option A)) x v : (x < length vs)%nat -> nth x (changed vs x v) None = v.
Proof. revert x. induction vs as [|w vs IH]; intros [|x] H; cbn in *; try lia; try reflexivity. apply IH. lia. Qed.
Lemma changed_length {A} (vs : list (option A)) x v : length (changed vs x v) = length vs.
Proof. revert x. induction vs as [|w vs IH]; intros [|x]; cbn; try reflexivity. rewrite IH. reflexivity. Qed.
Lemma owned_changed vs x v w : var vs x = Some v -> Permutation (owned (changed vs x (Some w))) (blocks w ++ owned (moved vs x)).
Proof.
  unfold var. revert x. induction vs as [|o vs IH]; intros [|x] H; cbn in H; try discriminate.
  - apply Permutation_refl.
  - specialize (IH x H). cbn [changed moved owned flat_map]. fold (owned (changed vs x (Some w))). fold (owned (moved vs x)).
    eapply Permutation_trans; [apply Permutation_app_head, IH|]. rewrite !app_assoc. apply Permutation_app_tail, Permutation_app_comm.
Qed.
Lemma forall2_changed m vs ps x v q : Forall2 (slot m) vs ps -> slot m v q -> Forall2 (slot m) (changed vs x v) (changed ps x q).
Proof. intros H K. revert x. induction H; intros [|k]; cbn; constructor; auto. Qed.
Lemma forall_changed ps x q : Forall key_fits ps -> key_fits q -> Forall key_fits (changed ps x q).
Proof. intros H K. revert x. induction H; intros [|k]; cbn; constructor; auto. Qed.
Lemma var_length vs x v : var vs x = Some v -> (x < length vs)%nat.
Proof. unfold var. intros H. destruct (Nat.lt_ge_cases x (length vs)) as [L|L]; [exact L|]. rewrite nth_overflow in H by exact L. discriminate H. Qed.

Lemma into_phrase_good m vs ps x s l e mn : inv m vs ps -> var vs x = Some (OMnemonic s l e) -> holds m (OMnemonic s l e) (PMnemonic mn) ->
  good m vs (OpIntoPhrase x) (moved ps x ++ [Some (PText (m_phrase mn))])
    (let? m'' := drop_value (alloc m [[]]) (OMnemonic (fresh m 0 []) l e) in ret m'' (moved vs x) (Some (OText s))).
Proof.
  intros I V H. pose proof (var_length _ _ _ V) as L. pose proof (slots_length _ _ _ (i_slots _ _ _ I)) as LL.
  set (m1 := alloc m [[]]). set (v' := OMnemonic (fresh m 0 []) l e).
  assert (J : inv m1 (changed vs x (Some v') ++ [Some (OText s)]) (changed ps x (Some (PMnemonic (Mnemonic [] l (m_entropy mn)))) ++ [Some (PText (m_phrase mn))])).
  { destruct I as [S D U F]. destruct H as (H1 & H2 & H3).
    assert (St : forall b d, read m b = Some d -> read m1 b = Some d).
    { intros b d R. rewrite (read_stable m m1 b); [exact R|]. apply extends_app, use_length. eapply read_use. exact R. }
    assert (P : Permutation (owned (changed vs x (Some v') ++ [Some (OText s)])) (length m :: owned vs)).
    { rewrite owned_app. cbn [owned flat_map blocks]. rewrite app_nil_r. fold (owned (changed vs x (Some v'))).
      eapply Permutation_trans; [apply Permutation_app_tail, (owned_changed vs x _ v' V)|]. cbn [v' blocks fresh b_at].
      rewrite Nat.add_0_r. cbn [app]. apply perm_skip. eapply Permutation_trans; [|apply Permutation_sym, (owned_moved vs x _ V)].
      cbn [blocks app]. eapply Permutation_trans; [apply Permutation_app_comm with (l := b_at e :: owned (moved vs x))|]. apply Permutation_refl. }
    constructor.
    - apply Forall2_app; [|constructor; [exact (St _ _ H1)|constructor]]. apply forall2_changed.
      + revert S. apply slots_stable. intros a Ha. apply extends_app, use_length, U, Ha.
      + cbn [slot holds v' m_phrase m_lang m_entropy]. split; [apply read_fresh; reflexivity|]. split; [reflexivity|]. exact (St _ _ H3).
    - apply (Permutation_NoDup (Permutation_sym P)). constructor; [|exact D]. intros X. apply U, use_length in X. lia.
    - intros a. unfold m1. rewrite use_alloc. cbn [length]. rewrite U. split.
      + intros X. apply (Permutation_in _ (Permutation_sym P)). destruct X as [X|X]; [right; exact X|left; lia].
      + intros X. apply (Permutation_in _ P) in X. destruct X as [X|X]; [right; lia|left; exact X].
    - apply Forall_app. split; [|constructor; [exact Logic.I|constructor]]. apply forall_changed; [exact F|exact Logic.I]. }
  assert (V' : var (changed vs x (Some v') ++ [Some (OText s)]) x = Some v').
  { unfold var. rewrite app_nth1 by (rewrite changed_length; exact L). apply nth_changed, L. }
  destruct (inv_drop _ _ _ _ _ J V') as (m2 & E & Q & K). rewrite E.
  rewrite moved_app, moved_changed in K by (rewrite changed_length; exact L).
  rewrite moved_app, moved_changed in K by (rewrite changed_length, <- LL; exact L).
  exists m2, (moved vs x ++ [Some (OText s)]). split; [reflexivity|]. split; [exact K|].
  eapply TInto; [reflexivity|exact V|exact Q|reflexivity].
Qed.
Lemma to_string_good m vs ps o e (w : buf -> value) (c : str -> pure) : inv m vs ps ->
  (forall b, blocks (w b) = [b_at b]) -> (forall mm b s, read mm b = Some s -> holds mm (w b) (c s)) -> (forall s, key_fits (Some (c s))) ->
  forall bl, good m vs o (ps ++ [of_ok c (write_base58 e)])
    (let m1 := leave m bl in
     match write_base58 e with Ok s => let '(m2, b) := new_text m1 s in ret m2 vs (Some (w b)) | _ => ret m1 vs None end).
Proof.
  intros I B H K bl. cbv zeta. destruct (write_base58 e) as [s|x|]; cbn [of_ok].
  - unfold new_text. apply good_new.
    + apply inv_leave, I.
    + apply extends_app.
    + apply exactly_one. rewrite B. reflexivity.
    + apply H, read_fresh. reflexivity.
    + apply K.
  - apply good_none; [apply inv_leave, I|apply extends_app].
  - apply good_none; [apply inv_leave, I|apply extends_app].
Qed.

Lemma without_moved vs x : without vs x = moved vs x.
Proof.
  unfold without. revert x. induction vs as [|v vs IH]; intros [|x]; try reflexivity.
  specialize (IH x). cbn [moved length]. destruct (Nat.ltb_spec x (length vs)) as [H|H].
  - destruct (Nat.ltb_spec (S x) (S (length vs))) as [H'|H']; [|lia]. cbn [firstn skipn app] in *. rewrite <- IH. reflexivity.
  - destruct (Nat.ltb_spec (S x) (S (length vs))) as [H'|H']; [lia|]. rewrite <- IH. reflexivity.
Qed.
Lemma after_moved vs o : after vs o =
  (let get x := nth x vs None in match takes get o with Some x => moved vs x | None => vs end ++ [meaning get o]).
Proof. unfold after. cbv zeta. destruct (takes _ o) as [x|]; [rewrite without_moved|]; reflexivity. Qed.

(** ** Every call *)
Lemma step_good m vs ps o : inv m vs ps -> good m vs o (after ps o) (step (State m vs) o).
Proof.
  intros I. destruct o as [s l|ent l|t l rng|x|x|x|x pw|x|x c|x q|x|x q|s|x]; rewrite after_moved; cbv zeta; cbn [step takes meaning].
  - apply from_phrase_good, I.
  - destruct (from_entropy ent l) as [mn|e|]; cbn [of_ok].
    + destruct (new_mnemonic_ok m mn) as [A B]. apply good_new; [exact I|apply extends_refl|exact A|exact B|exact Logic.I].
    + apply good_none; [exact I|apply extends_refl].
    + apply good_none; [exact I|apply extends_refl].
  - destruct (mnemonic_new t l rng) as [mn|e|]; cbn [of_ok].
    + destruct (new_mnemonic_ok m mn) as [A B]. apply good_new; [exact I|apply extends_refl|exact A|exact B|exact Logic.I].
    + apply good_none; [exact I|apply extends_refl].
    + apply good_none; [exact I|apply extends_refl].
  - (* clone *)
    pose proof (forall2_nth _ _ _ x (i_slots _ _ _ I)) as S.
    assert (K : key_fits (nth x ps None)).
    { destruct (nth_in_or_default x ps None) as [X|X]; [exact (proj1 (Forall_forall _ _) (i_fits _ _ _ I) _ X)|rewrite X; exact Logic.I]. }
    fold (var vs x) in S. destruct (var vs x) as [v|] eqn:V; destruct (nth x ps None) as [w|]; try contradiction.
    2: { apply good_none; [exact I|apply extends_refl]. }
    cbn [slot] in S. destruct v as [p l e|b|b|b|k d f i c|q d f i c k], w as [mn|d'|d'|d'|xp|ex]; try contradiction; cbn [clone_value].
    + rewrite (holds_mnemonic _ _ _ _ _ S). destruct (new_mnemonic_ok m mn) as [A B].
      apply good_new; [exact I|apply extends_refl|exact A|exact B|exact Logic.I].
    + cbn [holds] in S. rewrite S. apply good_new; [exact I|apply extends_refl|apply exactly_one; reflexivity|apply read_fresh; reflexivity|exact Logic.I].
    + cbn [holds] in S. rewrite S. apply good_new; [exact I|apply extends_refl|apply exactly_one; reflexivity|apply read_fresh; reflexivity|exact Logic.I].
    + cbn [holds] in S. rewrite S. apply good_new; [exact I|apply extends_refl|apply exactly_one; reflexivity|apply read_fresh; reflexivity|exact Logic.I].
    + destruct S as (S1 & S2 & -> & -> & ->). rewrite S1, S2. destruct (new_xprv_ok m xp) as [A B].
      apply good_new; [exact I|apply extends_refl|exact A|exact B|exact K].
    + rewrite (holds_ext _ _ _ _ _ _ _ _ S). destruct (new_ext_ok m ex) as [A B].
      apply good_new; [exact I|apply extends_refl|exact A|exact B|exact Logic.I].
  - (* into_phrase *)
    pose proof (forall2_nth _ _ _ x (i_slots _ _ _ I)) as S. fold (var vs x) in S.
    destruct (var vs x) as [v|] eqn:V; destruct (nth x ps None) as [w|]; try contradiction.
    2: { apply good_none; [exact I|apply extends_refl]. }
    cbn [slot] in S. destruct v as [p l e|b|b|b|k d f i c|q d f i c k], w as [mn|d'|d'|d'|xp|ex]; try contradiction;
      try (apply good_none; [exact I|apply extends_refl]).
    apply into_phrase_good; assumption.
  - (* Display *)
    pose proof (forall2_nth _ _ _ x (i_slots _ _ _ I)) as S. fold (var vs x) in S.
    destruct (var vs x) as [v|] eqn:V; destruct (nth x ps None) as [w|]; try contradiction.
    2: { apply good_none; [exact I|apply extends_refl]. }
    cbn [slot] in S. destruct v as [p l e|b|b|b|k d f i c|q d f i c k], w as [mn|d'|d'|d'|xp|ex]; try contradiction;
      try (apply good_none; [exact I|apply extends_refl]).
    + rewrite (holds_mnemonic _ _ _ _ _ S).
      apply good_new; [exact I|apply extends_refl|apply exactly_one; reflexivity|apply read_fresh; reflexivity|exact Logic.I].
    + rewrite (holds_ext _ _ _ _ _ _ _ _ S). destruct (display_ext_ok m ex) as [bl ->].
      pose proof (to_string_good m vs ps (OpDisplay x) ex OText PText I (fun _ => eq_refl) (fun _ _ _ X => X) (fun _ => Logic.I) bl) as G.
      cbv zeta in G. destruct (write_base58 ex); exact G.
  - (* Seed::new *)
    pose proof (forall2_nth _ _ _ x (i_slots _ _ _ I)) as S. fold (var vs x) in S.
    destruct (var vs x) as [v|] eqn:V; destruct (nth x ps None) as [w|]; try contradiction.
    2: { apply good_none; [exact I|apply extends_refl]. }
    cbn [slot] in S. destruct v as [p l e|b|b|b|k d f i c|q d f i c k], w as [mn|d'|d'|d'|xp|ex]; try contradiction;
      try (apply good_none; [exact I|apply extends_refl]).
    rewrite (holds_mnemonic _ _ _ _ _ S). pose proof (c111_same_results mn pw) as R. destruct (seed_new_mem mn pw) as [r bl]. cbn [fst] in R. rewrite <- R.
    destruct r as [d|e'|]; cbn [of_ok].
    + apply good_new; [apply inv_leave, I|apply extends_app|apply exactly_one; reflexivity|apply read_fresh; reflexivity|exact Logic.I].
    + apply good_none; [apply inv_leave, I|apply extends_app].
    + apply good_none; [apply inv_leave, I|apply extends_app].
  - (* XPrv::new *)
    pose proof (forall2_nth _ _ _ x (i_slots _ _ _ I)) as S. fold (var vs x) in S.
    destruct (var vs x) as [v|] eqn:V; destruct (nth x ps None) as [w|]; try contradiction.
    2: { apply good_none; [exact I|apply extends_refl]. }
    cbn [slot] in S. destruct v as [p l e|b|b|b|k d f i c|q d f i c k], w as [mn|d'|d'|d'|xp|ex]; try contradiction;
      try (apply good_none; [exact I|apply extends_refl]).
    cbn [holds] in S. rewrite S. destruct (inv_drop _ _ _ _ _ I V) as (m1 & E & D & J). rewrite E.
    destruct (xprv_new d') as [k|e|] eqn:X; cbn [of_ok].
    + destruct (new_xprv_ok m1 k) as [A B]. eapply good_drop_new; [exact J|exact V|exact D|exact A|exact B|eapply new_fits, X].
    + eapply good_drop_none; [exact J|exact V|exact D].
    + eapply good_drop_none; [exact J|exact V|exact D].
  - (* derive_child *)
    pose proof (forall2_nth _ _ _ x (i_slots _ _ _ I)) as S.
    assert (K : key_fits (nth x ps None)).
    { destruct (nth_in_or_default x ps None) as [X|X]; [exact (proj1 (Forall_forall _ _) (i_fits _ _ _ I) _ X)|rewrite X; exact Logic.I]. }
    fold (var vs x) in S. destruct (var vs x) as [v|] eqn:V; destruct (nth x ps None) as [w|]; try contradiction.
    2: { apply good_none; [exact I|apply extends_refl]. }
    cbn [slot] in S. destruct v as [p l e|b|b|b|k d f i cc|q d f i cc k], w as [mn|d'|d'|d'|xp|ex]; try contradiction;
      try (apply good_none; [exact I|apply extends_refl]).
    rewrite (holds_xprv _ _ _ _ _ _ _ S K). destruct (xprv_derive_child xp c) as [y|e|] eqn:X; cbn [of_ok].
    + destruct (new_xprv_ok m y) as [A B]. apply good_new; [exact I|apply extends_refl|exact A|exact B|eapply derive_fits, X].
    + apply good_none; [exact I|apply extends_refl].
    + apply good_none; [exact I|apply extends_refl].
  - (* to_extended_key *)
    pose proof (forall2_nth _ _ _ x (i_slots _ _ _ I)) as S.
    assert (K : key_fits (nth x ps None)).
    { destruct (nth_in_or_default x ps None) as [X|X]; [exact (proj1 (Forall_forall _ _) (i_fits _ _ _ I) _ X)|rewrite X; exact Logic.I]. }
    fold (var vs x) in S. destruct (var vs x) as [v|] eqn:V; destruct (nth x ps None) as [w|]; try contradiction.
    2: { apply good_none; [exact I|apply extends_refl]. }
    cbn [slot] in S. destruct v as [p l e|b|b|b|k d f i cc|q' d f i cc k], w as [mn|d'|d'|d'|xp|ex]; try contradiction;
      try (apply good_none; [exact I|apply extends_refl]).
    rewrite (holds_xprv _ _ _ _ _ _ _ S K). destruct (new_ext_ok m (xprv_to_extended_key xp q)) as [A B].
    apply good_new; [exact I|apply extends_refl|exact A|exact B|exact Logic.I].
  - (* TryFrom *)
    pose proof (forall2_nth _ _ _ x (i_slots _ _ _ I)) as S. fold (var vs x) in S.
    destruct (var vs x) as [v|] eqn:V; destruct (nth x ps None) as [w|]; try contradiction.
    2: { apply good_none; [exact I|apply extends_refl]. }
    cbn [slot] in S. destruct v as [p l e|b|b|b|k d f i c|q d f i c k], w as [mn|d'|d'|d'|xp|ex]; try contradiction;
      try (apply good_none; [exact I|apply extends_refl]).
    rewrite (holds_ext _ _ _ _ _ _ _ _ S). destruct (inv_drop _ _ _ _ _ I V) as (m1 & E & D & J). rewrite E.
    destruct (xprv_try_from ex) as [y|e|] eqn:X; cbn [of_ok].
    + destruct (new_xprv_ok m1 y) as [A B]. eapply good_drop_new; [exact J|exact V|exact D|exact A|exact B|eapply try_from_fits, X].
    + eapply good_drop_none; [exact J|exact V|exact D].
    + eapply good_drop_none; [exact J|exact V|exact D].
  - (* to_string *)
    pose proof (forall2_nth _ _ _ x (i_slots _ _ _ I)) as S.
    assert (K : key_fits (nth x ps None)).
    { destruct (nth_in_or_default x ps None) as [X|X]; [exact (proj1 (Forall_forall _ _) (i_fits _ _ _ I) _ X)|rewrite X; exact Logic.I]. }
    fold (var vs x) in S. destruct (var vs x) as [v|] eqn:V; destruct (nth x ps None) as [w|]; try contradiction.
    2: { apply good_none; [exact I|apply extends_refl]. }
    cbn [slot] in S. destruct v as [p l e|b|b|b|k d f i cc|q' d f i cc k], w as [mn|d'|d'|d'|xp|ex]; try contradiction;
      try (apply good_none; [exact I|apply extends_refl]).
    rewrite (holds_xprv _ _ _ _ _ _ _ S K). set (e := xprv_to_extended_key xp q). destruct (new_ext_ok m e) as [A B].
    change (new_ext m e) with (alloc m [chain_code (ek_attrs e); key_bytes e], snd (new_ext m e)).
    destruct (display_ext_ok (alloc m [chain_code (ek_attrs e); key_bytes e]) e) as [bl ->].
    destruct (inv_temporary m vs ps _ _ _ I A B Logic.I bl) as (m1 & E & J & Y). rewrite E.
    destruct (write_base58 e) as [s|x'|]; cbn [of_ok].
    + apply good_new; [exact J|exact Y|apply exactly_one; reflexivity|apply read_fresh; reflexivity|exact Logic.I].
    + apply good_none; assumption.
    + apply good_none; assumption.
  - (* from_str *)
    pose proof (c96_same_results s) as R. destruct (ek_from_str_mem s) as [r b]. cbn [fst] in R. rewrite <- R.
    destruct r as [e|e|]; cbn [of_ok].
    + destruct (new_ext_ok (leave m [b]) e) as [A B]. apply good_new; [apply inv_leave, I|apply extends_app|exact A|exact B|exact Logic.I].
    + apply good_none; [apply inv_leave, I|apply extends_app].
    + apply good_none; [apply inv_leave, I|apply extends_app].
  - (* drop *)
    destruct (var vs x) as [v|] eqn:V.
    + destruct (inv_drop _ _ _ _ _ I V) as (m1 & E & D & J). rewrite E. eapply good_drop_none; [exact J|exact V|exact D].
    + pose proof (forall2_nth _ _ _ x (i_slots _ _ _ I)) as S. fold (var vs x) in S. rewrite V in S.
      destruct (nth x ps None) eqn:W; [contradiction|]. rewrite (moved_none ps x W). apply good_none; [exact I|apply extends_refl].
Qed.

(** ** Programs *)
Inductive steps : memory -> list (option value) -> list op -> memory -> list (option value) -> Prop :=
| SNil m vs : steps m vs [] m vs
| SCons m vs o m1 vs1 ps1 ops m' vs' : trans m vs o m1 vs1 -> inv m1 vs1 ps1 -> steps m1 vs1 ops m' vs' -> steps m vs (o :: ops) m' vs'.
Lemma run_good ops : forall m vs ps, inv m vs ps ->
  exists m' vs', run_from (State m vs) ops = Some (State m' vs') /\ inv m' vs' (fold_left after ops ps) /\ steps m vs ops m' vs'.
Proof.
  induction ops as [|o ops IH]; intros m vs ps I; cbn [run_from fold_left].
  - exists m, vs. split; [reflexivity|]. split; [exact I|constructor].
  - destruct (step_good m vs ps o I) as (m1 & vs1 & E & J & T). rewrite E.
    destruct (IH m1 vs1 _ J) as (m' & vs' & E' & J' & S). exists m', vs'. split; [exact E'|]. split; [exact J'|]. econstructor; eassumption.
Qed.
Lemma inv_start : inv [] [] [].
Proof. constructor; [constructor|constructor| |constructor]. intros a. split; [intros [d H]; destruct a; discriminate H|intros []]. Qed.
Lemma run_from_app ops more : forall st, run_from st (ops ++ more) = let? st' := run_from st ops in run_from st' more.
Proof. induction ops as [|o ops IH]; intros st; cbn [run_from app]; [reflexivity|]. destruct (step st o); [apply IH|reflexivity]. Qed.
Lemma run_inv ops st : run ops = Some st -> inv (st_mem st) (st_vars st) (values ops).
Proof.
  unfold run. intros H. destruct (run_good ops [] [] [] inv_start) as (m & vs & E & I & _). rewrite E in H. injection H as <-. exact I.
Qed.
Lemma run_more ops more st st' : run ops = Some st -> run (ops ++ more) = Some st' ->
  steps (st_mem st) (st_vars st) more (st_mem st') (st_vars st').
Proof.
  intros H H'. pose proof (run_inv _ _ H) as I. unfold run in *. rewrite run_from_app, H in H'. destruct st as [m vs]. cbn [st_mem st_vars] in *.
  destruct (run_good more m vs _ I) as (m1 & vs1 & E & _ & S). rewrite E in H'. injection H' as <-. exact S.
Qed.

Lemma c147_wiping_is_safe : forall ops : list op, exists st, run ops = Some st
  /\ Forall2 (slot (st_mem st)) (st_vars st) (values ops)
  /\ NoDup (owned (st_vars st))
  /\ forall a, in_use (st_mem st) a <-> In a (owned (st_vars st)).
Proof.
  intros ops. destruct (run_good ops [] [] [] inv_start) as (m & vs & E & I & _). exists (State m vs). split; [exact E|]. cbn [st_mem st_vars].
  destruct I as [I1 I2 I3 _]. split; [exact I1|]. split; assumption.
Qed.

Definition ex_ops : list op := [OpFromEntropy ex_entropy English; OpClone 0; OpIntoPhrase 0; OpDrop 1].
Lemma ex_run : run ex_ops = Some (State [Cell ex_phrase true; Cell (repeat 0 16) false; Cell (repeat 0 (length ex_phrase)) false; Cell (repeat 0 16) false; Cell [] false]
  [None; None; Some (OText (Buf 0 (length ex_phrase))); None]).
Proof.
  unfold run, ex_ops. cbn [run_from step]. rewrite ex_from_entropy. reflexivity.
Qed.
Example c147_example : run ex_ops = Some (State
    [Cell ex_phrase true; Cell (repeat 0 16) false; Cell (repeat 0 (length ex_phrase)) false; Cell (repeat 0 16) false; Cell [] false]
    [None; None; Some (OText (Buf 0 (length ex_phrase))); None])
  /\ values ex_ops = [None; None; Some (PText ex_phrase); None].
Proof.
  split; [exact ex_run|]. unfold values, ex_ops. cbn [fold_left]. unfold after. cbn [meaning takes]. rewrite ex_from_entropy. reflexivity.
Qed.

Lemma var_app vs x v r : var vs x = Some v -> var (vs ++ [r]) x = Some v.
Proof. intros H. unfold var in *. rewrite app_nth1; [exact H|]. apply (var_length _ _ _ H). Qed.
Lemma var_moved_other (vs : list (option value)) y : forall x, y <> x -> var (moved vs y) x = var vs x.
Proof.
  unfold var. revert y. induction vs as [|v vs IH]; intros y x H; [reflexivity|]. destruct y as [|y], x as [|x]; try reflexivity; [contradiction|].
  cbn [moved nth]. apply IH. intros ->. apply H. reflexivity.
Qed.
Lemma var_moved_same (vs : list (option value)) x : var (moved vs x) x = None.
Proof. unfold var. revert x. induction vs as [|v vs IH]; intros [|x]; try reflexivity. cbn [moved nth]. apply IH. Qed.
Lemma moved_length_v (vs : list (option value)) x : length (moved vs x) = length vs.
Proof. revert x. induction vs as [|v vs IH]; intros [|x]; try reflexivity. cbn [moved length]. rewrite IH. reflexivity. Qed.
(** A variable that is gone stays gone. *)
Definition gone (vs : list (option value)) (x : nat) : Prop := (x < length vs)%nat /\ var vs x = None.
Lemma gone_app vs x r : gone vs x -> gone (vs ++ [r]) x.
Proof. intros [H E]. split; [rewrite app_length; lia|]. unfold var in *. rewrite app_nth1 by exact H. exact E. Qed.
Lemma gone_moved vs x y : gone vs x -> gone (moved vs y) x.
Proof.
  intros [H E]. split; [rewrite moved_length_v; exact H|]. destruct (Nat.eq_dec y x) as [->|D]; [apply var_moved_same|].
  rewrite var_moved_other by exact D. exact E.
Qed.
Lemma gone_now vs x v : var vs x = Some v -> gone (moved vs x) x.
Proof. intros H. split; [rewrite moved_length_v; apply (var_length _ _ _ H)|apply var_moved_same]. Qed.
Lemma gone_step m vs o m' vs' x : trans m vs o m' vs' -> gone vs x -> gone vs' x.
Proof.
  intros [r _ ->|y v m1 r _ _ _ ->|y s l e _ _ _ ->] G; [apply gone_app, G|apply gone_app, gone_moved, G|apply gone_app, gone_moved, G].
Qed.
Lemma extends_nth m m' a c : extends m m' -> nth_error m a = Some c -> nth_error m' a = Some c.
Proof. intros E H. rewrite (E a); [exact H|]. apply nth_error_Some. rewrite H. discriminate. Qed.
Lemma not_shared vs x y v w a : NoDup (owned vs) -> var vs x = Some v -> var vs y = Some w -> x <> y -> In a (blocks v) -> In a (blocks w) -> False.
Proof.
  intros N V W D A B. pose proof (Permutation_NoDup (owned_moved _ _ _ V) N) as N'. destruct (nodup_split _ _ N') as (_ & _ & S).
  apply (S a A). eapply owned_in; [|exact B]. rewrite var_moved_other by exact D. exact W.
Qed.
Lemma blocks_nodup vs x v : NoDup (owned vs) -> var vs x = Some v -> NoDup (blocks v).
Proof. intros N V. pose proof (Permutation_NoDup (owned_moved _ _ _ V) N) as N'. apply (nodup_split _ _ N'). Qed.
Lemma in_blocks v a : In a (protected v) -> In a (blocks v).
Proof. destruct v; cbn [protected blocks In]; tauto. Qed.
Lemma into_other (m : memory) (vs : list (option value)) y s l e m' a c :
  NoDup (owned vs) -> var vs y = Some (OMnemonic s l e) -> dropped (alloc m [[]]) (OMnemonic (fresh m 0 []) l e) m' ->
  nth_error m a = Some c -> a <> b_at e -> nth_error m' a = Some c.
Proof.
  intros N V D H A. assert (L : (a < length m)%nat) by (apply nth_error_Some; rewrite H; discriminate).
  rewrite (d_other _ _ _ D).
  - apply extends_nth with (m := m); [apply extends_app|exact H].
  - cbn [blocks In fresh b_at]. intros [X|[X|[]]]; [lia|]. apply A. symmetry. exact X.
Qed.

(** ** Blocks that are no longer in use keep what they hold *)
Lemma dead_step m vs ps o m' vs' a d : inv m vs ps -> trans m vs o m' vs' -> nth_error m a = Some (Cell d false) -> nth_error m' a = Some (Cell d false).
Proof.
  intros I T H. assert (U : ~ In a (owned vs)). { intros X. apply (i_use _ _ _ I) in X. destruct X as [d' X]. rewrite H in X. discriminate X. }
  destruct T as [r E _|y v m1 r V D E _|y s l e _ V D _].
  - apply (extends_nth _ _ _ _ E H).
  - apply (extends_nth _ _ _ _ E). rewrite (d_other _ _ _ D); [exact H|]. intros X. apply U. eapply owned_in; eassumption.
  - eapply into_other; [apply (i_nodup _ _ _ I)|exact V|exact D|exact H|]. intros ->. apply U. eapply owned_in; [exact V|]. right. left. reflexivity.
Qed.
Lemma dead_steps m vs ops m' vs' ps a d : steps m vs ops m' vs' -> inv m vs ps -> nth_error m a = Some (Cell d false) -> nth_error m' a = Some (Cell d false).
Proof.
  intros S. revert ps. induction S as [m vs|m vs o m1 vs1 ps1 ops m' vs' T J S IH]; intros ps I H; [exact H|].
  apply (IH ps1 J). eapply dead_step; eassumption.
Qed.
Lemma gone_steps m vs ops m' vs' x : steps m vs ops m' vs' -> gone vs x -> gone vs' x.
Proof. intros S. induction S as [m vs|m vs o m1 vs1 ps1 ops m' vs' T J S IH]; intros G; [exact G|]. apply IH. eapply gone_step; eassumption. Qed.

(** ** Blocks that are not protected keep what they hold *)
Definition plain (vs : list (option value)) (a : nat) : Prop := exists x v, var vs x = Some v /\ In a (blocks v) /\ ~ In a (protected v).
Lemma plain_step m vs ps o m' vs' a d : inv m vs ps -> trans m vs o m' vs' -> plain vs a -> nth_error m a = Some (Cell d true) ->
  (plain vs' a /\ nth_error m' a = Some (Cell d true)) \/ nth_error m' a = Some (Cell d false).
Proof.
  intros I T (x & v & V & B & P) H. destruct T as [r E ->|y w m1 r W D E ->|y s l e _ W D ->].
  - left. split; [|apply (extends_nth _ _ _ _ E H)]. exists x, v. split; [apply var_app, V|]. split; assumption.
  - destruct (Nat.eq_dec y x) as [->|Y].
    + rewrite V in W. injection W as <-. right. apply (extends_nth _ _ _ _ E). apply (d_left _ _ _ D); assumption.
    + left. split.
      * exists x, v. split; [apply var_app; rewrite var_moved_other by exact Y; exact V|]. split; assumption.
      * apply (extends_nth _ _ _ _ E). rewrite (d_other _ _ _ D); [exact H|]. intros X. apply (not_shared vs x y v w a (i_nodup _ _ _ I) V W); [|exact B|exact X].
        intros Q. apply Y. symmetry. exact Q.
  - destruct (Nat.eq_dec y x) as [->|Y]; [rewrite V in W; injection W as ->; contradiction|]. left. split.
    + exists x, v. split; [apply var_app; rewrite var_moved_other by exact Y; exact V|]. split; assumption.
    + eapply into_other; [apply (i_nodup _ _ _ I)|exact W|exact D|exact H|]. intros ->.
      apply (not_shared vs x y v _ (b_at e) (i_nodup _ _ _ I) V W); [|exact B|right; left; reflexivity]. intros Q. apply Y. symmetry. exact Q.
Qed.
Lemma plain_steps m vs ops m' vs' ps a d : steps m vs ops m' vs' -> inv m vs ps -> plain vs a -> nth_error m a = Some (Cell d true) ->
  exists live, nth_error m' a = Some (Cell d live).
Proof.
  intros S. revert ps. induction S as [m vs|m vs o m1 vs1 ps1 ops m' vs' T J S IH]; intros ps I P H; [exists true; exact H|].
  destruct (plain_step _ _ _ _ _ _ _ _ I T P H) as [[P' H']|H']; [apply (IH _ J P' H')|].
  exists false. eapply dead_steps; eassumption.
Qed.

(** ** Protected blocks are overwritten *)
Definition fate (m' : memory) (vs' : list (option value)) (ops : list op) (x : nat) (v : value) (a : nat) (d : list N) : Prop :=
  (var vs' x = Some v /\ nth_error m' a = Some (Cell d true))
  \/ (gone vs' x /\ nth_error m' a = Some (Cell (repeat 0 (length d)) false))
  \/ (gone vs' x /\ In (OpIntoPhrase x) ops /\ phrase_block v a /\ exists live, nth_error m' a = Some (Cell d live)).
Lemma fate_steps m vs ops m' vs' ps x v a d : steps m vs ops m' vs' -> inv m vs ps -> var vs x = Some v -> In a (protected v) ->
  nth_error m a = Some (Cell d true) -> fate m' vs' ops x v a d.
Proof.
  intros S. revert ps. induction S as [m vs|m vs o m1 vs1 ps1 ops m' vs' T J S IH]; intros ps I V P H; [left; split; assumption|].
  assert (Keep : var vs1 x = Some v -> nth_error m1 a = Some (Cell d true) -> fate m' vs' (o :: ops) x v a d).
  { intros V1 H1. destruct (IH ps1 J V1 P H1) as [F|[F|(F1 & F2 & F3)]]; [left; exact F|right; left; exact F|].
    right. right. split; [exact F1|]. split; [right; exact F2|exact F3]. }
  assert (Wiped : gone vs1 x -> nth_error m1 a = Some (Cell (repeat 0 (length d)) false) -> fate m' vs' (o :: ops) x v a d).
  { intros G1 H1. right. left. split; [eapply gone_steps; eassumption|]. eapply dead_steps; eassumption. }
  destruct T as [r E ->|y w m2 r W D E ->|y s l e -> W D ->].
  - apply Keep; [apply var_app, V|apply (extends_nth _ _ _ _ E H)].
  - destruct (Nat.eq_dec y x) as [->|Y].
    + rewrite V in W. injection W as <-. apply Wiped; [apply gone_app, (gone_now _ _ _ V)|]. apply (extends_nth _ _ _ _ E). apply (d_wiped _ _ _ D); assumption.
    + apply Keep; [apply var_app; rewrite var_moved_other by exact Y; exact V|]. apply (extends_nth _ _ _ _ E). rewrite (d_other _ _ _ D); [exact H|].
      intros X. apply (not_shared vs x y v w a (i_nodup _ _ _ I) V W); [|apply in_blocks, P|exact X]. intros Q. apply Y. symmetry. exact Q.
  - destruct (Nat.eq_dec y x) as [->|Y].
    + rewrite V in W. injection W as ->. pose proof (blocks_nodup _ _ _ (i_nodup _ _ _ I) V) as N. cbn [blocks] in N.
      destruct P as [P|[P|[]]]; subst a.
      * assert (N' : b_at s <> b_at e). { intros X. inversion N as [|? ? A B]; subst. apply A. left. symmetry. exact X. }
        assert (H1 : nth_error m1 (b_at s) = Some (Cell d true)) by (eapply into_other; [apply (i_nodup _ _ _ I)|exact V|exact D|exact H|exact N']).
        right. right. split; [eapply gone_steps; [exact S|]; apply gone_app, (gone_now _ _ _ V)|]. split; [left; reflexivity|]. split; [reflexivity|].
        eapply plain_steps; [exact S|exact J| |exact H1]. exists (length (moved vs x)), (OText s). split.
        -- unfold var. rewrite app_nth2 by lia. rewrite Nat.sub_diag. reflexivity.
        -- split; [left; reflexivity|intros []].
      * apply Wiped; [apply gone_app, (gone_now _ _ _ V)|]. apply (d_wiped _ _ _ D); [right; left; reflexivity|].
        apply extends_nth with (m := m); [apply extends_app|exact H].
    + apply Keep; [apply var_app; rewrite var_moved_other by exact Y; exact V|].
      eapply into_other; [apply (i_nodup _ _ _ I)|exact W|exact D|exact H|]. intros ->.
      apply (not_shared vs x y v _ (b_at e) (i_nodup _ _ _ I) V W); [|apply in_blocks, P|right; left; reflexivity]. intros Q. apply Y. symmetry. exact Q.
Qed.

(** The blocks of a value are overwritten as soon as its variable is gone, and stay so; only the phrase taken out
    with [into_phrase] is kept. *)
Lemma c148_secrets_are_wiped : forall (ops more : list op) (st st' : state) (x : nat) (v : value) (a : nat) (d : list N),
  run ops = Some st -> run (ops ++ more) = Some st' ->
  var (st_vars st) x = Some v -> In a (protected v) -> nth_error (st_mem st) a = Some (Cell d true) ->
  (var (st_vars st') x = Some v /\ nth_error (st_mem st') a = Some (Cell d true))
  \/ (var (st_vars st') x = None /\ nth_error (st_mem st') a = Some (Cell (repeat 0 (length d)) false))
  \/ (var (st_vars st') x = None /\ In (OpIntoPhrase x) more /\ phrase_block v a
      /\ exists live, nth_error (st_mem st') a = Some (Cell d live)).
Proof.
  intros ops more st st' x v a d R R' V P H.
  destruct (fate_steps _ _ _ _ _ _ _ _ _ _ (run_more _ _ _ _ R R') (run_inv _ _ R) V P H) as [F|[[[_ F] F']|([_ F] & F')]].
  - left. exact F.
  - right. left. split; assumption.
  - right. right. split; assumption.
Qed.
Lemma c148_on_drop : forall (ops : list op) (st : state) (x : nat) (v : value),
  run ops = Some st -> var (st_vars st) x = Some v ->
  exists st', run (ops ++ [OpDrop x]) = Some st' /\ var (st_vars st') x = None
    /\ forall a, In a (protected v) -> exists d, nth_error (st_mem st) a = Some (Cell d true)
        /\ nth_error (st_mem st') a = Some (Cell (repeat 0 (length d)) false).
Proof.
  intros ops st x v R V. pose proof (run_inv _ _ R) as I. destruct (c147_wiping_is_safe (ops ++ [OpDrop x])) as (st' & R' & _). exists st'. split; [exact R'|].
  assert (G : var (st_vars st') x = None).
  { unfold run in R, R'. rewrite run_from_app, R in R'. cbn [run_from] in R'. destruct st as [m vs]. cbn [st_vars st_mem step] in *. rewrite V in R'.
    destruct (drop_value m v) as [m'|]; [|discriminate R']. unfold ret in R'. injection R' as <-. cbn [st_vars].
    apply (gone_app _ _ None (gone_now _ _ _ V)). }
  split; [exact G|]. intros a P.
  assert (U : in_use (st_mem st) a) by (apply (i_use _ _ _ I); eapply owned_in; [exact V|apply in_blocks, P]). destruct U as [d U]. exists d. split; [exact U|].
  destruct (c148_secrets_are_wiped _ _ _ _ _ _ _ _ R R' V P U) as [[F _]|[[_ F]|(_ & F & _)]]; [rewrite G in F; discriminate F|exact F|].
  destruct F as [F|[]]. discriminate F.
Qed.

Example c148_example :
  run [OpFromEntropy ex_entropy English] =
    Some (State [Cell ex_phrase true; Cell ex_entropy true] [Some (OMnemonic (Buf 0 (length ex_phrase)) English (Buf 1 16))])
  /\ run ([OpFromEntropy ex_entropy English] ++ [OpDrop 0]) =
    Some (State [Cell (repeat 0 (length ex_phrase)) false; Cell (repeat 0 16) false] [None; None]).
Proof.
  split; unfold run; cbn [run_from app step]; rewrite ex_from_entropy; reflexivity.
Qed.

(** The keys of an XPrv, the chain codes and plain texts are never overwritten. *)
Lemma c149_keys_stay : forall (ops more : list op) (st st' : state) (x : nat) (v : value) (a : nat) (d : list N),
  run ops = Some st -> run (ops ++ more) = Some st' ->
  var (st_vars st) x = Some v -> In a (blocks v) -> ~ In a (protected v) -> nth_error (st_mem st) a = Some (Cell d true) ->
  exists live, nth_error (st_mem st') a = Some (Cell d live).
Proof.
  intros ops more st st' x v a d R R' V B P H. eapply plain_steps; [exact (run_more _ _ _ _ R R')|exact (run_inv _ _ R)| |exact H].
  exists x, v. split; [exact V|]. split; assumption.
Qed.
Definition ex_key_ops : list op := [OpParse ex_text; OpTryInto 0].
Lemma parse_values s e x : ek_from_str s = Ok e -> xprv_try_from e = Ok x -> values [OpParse s; OpTryInto 0] = [None; Some (PXPrv x)].
Proof.
  intros E X. unfold values. cbn [fold_left]. unfold after at 2. cbn [meaning takes app]. rewrite E. cbn [of_ok].
  unfold after, without. cbn [meaning takes nth app length]. rewrite X. reflexivity.
Qed.
Lemma parse_key s e x : ek_from_str s = Ok e -> xprv_from_str s = Ok x -> xprv_try_from e = Ok x.
Proof. intros E X. unfold xprv_from_str in X. rewrite E in X. exact X. Qed.
Lemma ex_key_values : values ex_key_ops = [None; Some (PXPrv ex_xprv)].
Proof. exact (parse_values ex_text ex_ext ex_xprv c37_example (parse_key ex_text ex_ext ex_xprv c37_example (proj1 c42_example))). Qed.
Definition ex_key : bytes := be_bytes 32 (Z.to_N ex_secret).
Lemma ex_key_first : nth 0 ex_key 0 = 232.
Proof. vm_compute. reflexivity. Qed.
Lemma ex_key_run : exists st k dp f i c, run ex_key_ops = Some st /\ var (st_vars st) 1 = Some (OXPrv k dp f i c)
  /\ read (st_mem st) k = Some ex_key.
Proof.
  destruct (c147_wiping_is_safe ex_key_ops) as (st & R & F & _). rewrite ex_key_values in F. destruct st as [m vs]. cbn [st_mem st_vars] in F.
  exists (State m vs). inversion F as [|o q vs' ps' S1 F1 E1 E2]; subst. inversion F1 as [|o2 q2 vs2 ps2 S2 F2 E1 E2]; subst.
  destruct o2 as [[]|]; try contradiction. cbn [slot holds] in S2. destruct S2 as (S2 & _). do 5 eexists. split; [exact R|]. split; [reflexivity|exact S2].
Qed.
Lemma c149_keys_wiped_refuted : ~ forall (ops : list op) (st st' : state) (x : nat) (k : buf) (dp : N) (f : bytes) (i : N) (c : buf),
  run ops = Some st -> var (st_vars st) x = Some (OXPrv k dp f i c) -> run (ops ++ [OpDrop x]) = Some st' ->
  exists d, nth_error (st_mem st) (b_at k) = Some (Cell d true) /\ nth_error (st_mem st') (b_at k) = Some (Cell (repeat 0 (length d)) false).
Proof.
  intros H. destruct ex_key_run as (st & k & dp & f & i & c & R & V & K). destruct (c147_wiping_is_safe (ex_key_ops ++ [OpDrop 1])) as (st' & R' & _).
  destruct (H _ _ _ _ _ _ _ _ _ R V R') as (d & D & D').
  destruct (c149_keys_stay _ _ _ _ _ _ (b_at k) d R R' V) as (live & L); [left; reflexivity|intros []|exact D|].
  unfold read in K. rewrite D in K. rewrite L in D'. injection D' as E _. rewrite E in K. injection K as K.
  assert (X : forall j, nth j ex_key 0 = 0).
  { intros j. rewrite <- K. destruct (nth_in_or_default j (firstn (b_len k) (repeat 0 (length d))) 0) as [Y|Y]; [|exact Y].
    apply (repeat_spec (length d) 0). rewrite <- (firstn_skipn (b_len k)). apply in_or_app. left. exact Y. }
  specialize (X 0%nat). rewrite ex_key_first in X. discriminate X.
Qed.
Example c149_example : values ex_key_ops = [None; Some (PXPrv ex_xprv)]
  /\ exists st k dp f i c, run ex_key_ops = Some st /\ var (st_vars st) 1 = Some (OXPrv k dp f i c) /\ read (st_mem st) k = Some ex_key.
Proof.
  split; [exact ex_key_values|exact ex_key_run].
Qed.
