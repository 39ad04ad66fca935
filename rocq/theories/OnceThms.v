(** Proofs about threads that use the word lists at the same time (restated in PropOnce.v). *)
From Coq Require Import String.
From Verif Require Import Outcome Bytes Str ModelBip39 ModelLangs SpecLangs ModelOnce SpecOnce LangData LangProofs.
Open Scope N_scope.

(** ** The tables *)
Definition the_table (c : static) : table := match c with SList l => TList (wordlist_all l) | SMap l => TMap (wordmap_all l) end.
Definition arg_ok (c : static) (arg : option table) : Prop :=
  match needs c with None => arg = None | Some d => arg = Some (the_table d) end.
Lemma build_ok c arg : arg_ok c arg -> build c arg = Some (the_table c).
Proof.
  destruct c as [l|l]; unfold arg_ok; cbn [needs]; intros ->; unfold build; cbn [the_table]; [|reflexivity].
  assert (L : len (wordlist_all l) = 2048). { unfold len. rewrite wordlist_all_words, words_all_length. reflexivity. }
  rewrite L. reflexivity.
Qed.
Lemma the_table_ok c : table_ok c (the_table c).
Proof.
  destruct c as [l|l]; unfold the_table, table_ok.
  - exact (eq_trans (wordlist_all_words l) (eq_sym (published_words l))).
  - intros w i. pose proof (get_bits_all_ok l w i) as H. unfold is_word_all in H. rewrite <- H. unfold get_bits.
    destruct (map_get (wordmap_all l) w) as [n|]; split; intros E; try discriminate E; injection E as ->; reflexivity.
Qed.
Global Opaque build.

(** ** Lists *)
Lemma nth_upd {A} (l : list A) i x j : nth_error (upd l i x) j = (if Nat.eqb j i then (match nth_error l i with Some _ => Some x | None => None end) else nth_error l j).
Proof.
  revert i j. induction l as [|y l IH]; intros i j; cbn [upd].
  - destruct (Nat.eqb j i), i, j; reflexivity.
  - destruct i as [|i], j as [|j]; cbn [nth_error Nat.eqb]; try reflexivity. apply IH.
Qed.
Lemma upd_same {A} (l : list A) i x y : nth_error l i = Some y -> nth_error (upd l i x) i = Some x.
Proof. intros H. rewrite nth_upd, Nat.eqb_refl, H. reflexivity. Qed.
Lemma upd_other {A} (l : list A) i x j : j <> i -> nth_error (upd l i x) j = nth_error l j.
Proof. intros H. rewrite nth_upd. destruct (Nat.eqb_spec j i); [contradiction|reflexivity]. Qed.
Lemma phase_eqb_spec a b : phase_eqb a b = true <-> a = b.
Proof. destruct a, b; cbn; split; congruence. Qed.
Lemma snapshot_eqb_spec a b : snapshot_eqb a b = true <-> a = b.
Proof.
  destruct a as [p x], b as [q y]. unfold snapshot_eqb. cbn [fst snd]. rewrite andb_true_iff, phase_eqb_spec.
  destruct x as [x|], y as [y|]; [rewrite Nat.eqb_eq| | |].
  - split; [intros [-> ->]; reflexivity|intros H; injection H as -> ->; split; reflexivity].
  - split; [intros [_ H]; discriminate H|intros H; discriminate H].
  - split; [intros [_ H]; discriminate H|intros H; discriminate H].
  - split; [intros [-> _]; reflexivity|intros H; injection H as ->; split; reflexivity].
Qed.

(** ** The invariant *)
Definition runs (p : pc) : Prop := match p with PTake | PNeed | PBuild _ | PDone => True | _ => False end.
Definition run_of (t : thread) (c : static) : Prop := exists p, runs p /\ In (c, p) (t_stack t).
Definition top (t : thread) (c : static) (p : pc) : Prop := exists below, t_stack t = (c, p) :: below.
Inductive shape : list (static * pc) -> Prop :=
| shape_nil : shape []
| shape_one c p : p <> PNeed -> shape [(c, p)]
| shape_two c d p : needs c = Some d -> p <> PNeed -> shape [(d, p); (c, PNeed)].
Definition frame_ok (k : once) (c : static) (p : pc) : Prop :=
  match p with
  | PGet | PLoad | PPark false => True
  | PLoop q => (fst q = Complete -> o_phase k = Complete) /\ (fst q = Running -> o_phase k <> Incomplete)
  | PWait q => fst q = Running /\ o_phase k <> Incomplete
  | PPark true | PWake _ | PRead => o_phase k = Complete
  | PTake => o_phase k = Running /\ o_init k = true /\ o_value k = None
  | PNeed => o_phase k = Running /\ o_value k = None
  | PBuild arg => o_phase k = Running /\ o_value k = None /\ arg_ok c arg
  | PDone => o_phase k = Running /\ o_value k = Some (the_table c)
  end.
Definition th (s : state) (i : nat) (t : thread) : Prop := nth_error (s_threads s) i = Some t.
Record inv (s : state) : Prop := Inv {
  i_shape : forall i t, th s i t -> shape (t_stack t);
  i_frame : forall i t c p, th s i t -> In (c, p) (t_stack t) -> frame_ok (s_cells s c) c p;
  i_incomplete : forall c, o_phase (s_cells s c) = Incomplete -> o_waiting (s_cells s c) = [] /\ o_init (s_cells s c) = true /\ o_value (s_cells s c) = None;
  i_running : forall c, o_phase (s_cells s c) = Running -> exists i t, th s i t /\ run_of t c;
  i_complete : forall c, o_phase (s_cells s c) = Complete -> o_waiting (s_cells s c) = [] /\ o_value (s_cells s c) = Some (the_table c);
  i_runner : forall i j t u c, th s i t -> th s j u -> run_of t c -> run_of u c -> i = j;
  i_waiting : forall c w, In w (o_waiting (s_cells s c)) -> exists t, th s w t /\ top t c (PPark false);
  i_nodup : forall c, NoDup (o_waiting (s_cells s c));
  i_waker : forall j u c ws, th s j u -> top u c (PWake ws) -> NoDup ws /\ forall w, In w ws -> exists t, th s w t /\ top t c (PPark false);
  i_one : forall i j t u c a b, th s i t -> th s j u -> top t c (PWake a) -> top u c (PWake b) -> i = j;
  i_parked : forall i t c, th s i t -> top t c (PPark false) ->
    In i (o_waiting (s_cells s c)) \/ exists j u ws, th s j u /\ top u c (PWake ws) /\ In i ws;
  i_built : NoDup (s_built s) /\ forall c, In c (s_built s) <-> o_value (s_cells s c) <> None;
  i_seen : forall i t c v, th s i t -> In (c, v) (t_seen t) -> v = the_table c }.

Lemma needs_other c d : needs c = Some d -> d <> c.
Proof. destruct c; cbn; intros H; [discriminate H|]. injection H as <-. discriminate. Qed.
Lemma needs_none c d : needs c = Some d -> needs d = None.
Proof. destruct c; cbn; intros H; [discriminate H|]. injection H as <-. reflexivity. Qed.
Lemma run_phase s i t c : inv s -> th s i t -> run_of t c -> o_phase (s_cells s c) = Running.
Proof.
  intros I T (p & R & H). pose proof (i_frame _ I _ _ _ _ T H) as F. destruct p; try contradiction; cbn [frame_ok] in F; apply F.
Qed.
Lemma top_in t c p : top t c p -> In (c, p) (t_stack t).
Proof. intros [b ->]. left. reflexivity. Qed.

(** One thread moves and one static changes. *)
Lemma inv_update s s' i t t' c :
  inv s -> th s i t -> s_threads s' = upd (s_threads s) i t' ->
  (forall d, d <> c -> s_cells s' d = s_cells s d) ->
  let k := s_cells s c in let k' := s_cells s' c in
  shape (t_stack t') ->
  (forall d p, In (d, p) (t_stack t') -> frame_ok (s_cells s' d) d p) ->
  (forall j u p, j <> i -> th s j u -> In (c, p) (t_stack u) -> frame_ok k c p -> frame_ok k' c p) ->
  (forall d, run_of t' d -> run_of t d \/ (d = c /\ o_phase k = Incomplete)) ->
  (forall d, d <> c -> run_of t d -> run_of t' d) ->
  (o_phase k' = Incomplete -> o_waiting k' = [] /\ o_init k' = true /\ o_value k' = None) ->
  (o_phase k' = Running -> run_of t' c \/ (o_phase k = Running /\ ~ run_of t c)) ->
  (o_phase k' = Complete -> o_waiting k' = [] /\ o_value k' = Some (the_table c)) ->
  (forall d, ~ top t d (PPark false)) ->
  (forall d, top t' d (PPark false) -> d = c /\ In i (o_waiting k')) ->
  (forall w, In w (o_waiting k') -> In w (o_waiting k) \/ (w = i /\ top t' c (PPark false))) ->
  NoDup (o_waiting k') ->
  (forall w, In w (o_waiting k) -> In w (o_waiting k') \/ exists ws, top t' c (PWake ws) /\ In w ws) ->
  (forall d ws, top t' d (PWake ws) -> top t d (PWake ws) \/ (d = c /\ o_phase k <> Complete /\ ws = o_waiting k)) ->
  (forall d w ws, top t d (PWake ws) -> In w ws -> top t' d (PWake ws)) ->
  (NoDup (s_built s') /\ forall d, In d (s_built s') <-> o_value (s_cells s' d) <> None) ->
  (forall d v, In (d, v) (t_seen t') -> v = the_table d) ->
  inv s'.
Proof.
  intros I T Es Ec k k' Hshape Hframes Hothers Hrun Hrun' Hinc Hrunning Hcomp Hnp Hpark Hwait Hnd Hlost Hwake Hkept Hbuilt Hseen.
  assert (Same : th s' i t') by (unfold th; rewrite Es; eapply upd_same, T).
  assert (Other : forall j u, j <> i -> (th s' j u <-> th s j u)) by (intros j u D; unfold th; rewrite Es, upd_other by exact D; reflexivity).
  assert (Old : forall j u, th s' j u -> (j = i /\ u = t') \/ (j <> i /\ th s j u)).
  { intros j u H. destruct (Nat.eq_dec j i) as [->|D]; [left|right; split; [exact D|apply Other; assumption]].
    split; [reflexivity|]. unfold th in H, Same. rewrite H in Same. injection Same as ->. reflexivity. }
  assert (Stays : forall w u d, th s w u -> top u d (PPark false) -> w <> i).
  { intros w u d H P ->. unfold th in H, T. rewrite T in H. injection H as <-. apply (Hnp d P). }
  constructor.
  - intros j u H. destruct (Old _ _ H) as [[-> ->]|[D H']]; [exact Hshape|apply (i_shape _ I _ _ H')].
  - intros j u d p H Hp. destruct (Old _ _ H) as [[-> ->]|[D H']]; [apply Hframes, Hp|]. pose proof (i_frame _ I _ _ _ _ H' Hp) as F.
    destruct (static_eq_dec d c) as [->|N]; [eapply Hothers; eassumption|]. rewrite Ec by exact N. exact F.
  - intros d H. destruct (static_eq_dec d c) as [->|N]; [apply Hinc, H|]. rewrite Ec in * by exact N. apply (i_incomplete _ I), H.
  - intros d H. destruct (static_eq_dec d c) as [->|N].
    + destruct (Hrunning H) as [R|[R NR]]; [exists i, t'; split; assumption|]. destruct (i_running _ I _ R) as (j & u & U & RU). exists j, u. split; [|exact RU].
      apply Other; [|exact U]. intros ->. unfold th in U, T. rewrite T in U. injection U as <-. contradiction.
    + rewrite Ec in H by exact N. destruct (i_running _ I _ H) as (j & u & U & RU). destruct (Nat.eq_dec j i) as [->|D].
      * exists i, t'. split; [exact Same|]. unfold th in U, T. rewrite T in U. injection U as <-. apply Hrun'; assumption.
      * exists j, u. split; [apply Other; assumption|exact RU].
  - intros d H. destruct (static_eq_dec d c) as [->|N]; [apply Hcomp, H|]. rewrite Ec in * by exact N. apply (i_complete _ I), H.
  - assert (X : forall j u d, j <> i -> th s j u -> run_of u d -> run_of t' d -> False).
    { intros j u d D U RU R. destruct (Hrun d R) as [R'|[-> R']].
      - apply D. apply (i_runner _ I j i u t d); assumption.
      - pose proof (run_phase _ _ _ _ I U RU) as P. fold k in P. rewrite P in R'. discriminate R'. }
    intros a b u v d U V RU RV. destruct (Old _ _ U) as [[-> ->]|[D U']], (Old _ _ V) as [[-> ->]|[D' V']]; [reflexivity| | |].
    + exfalso. apply (X b v d D' V' RV RU).
    + exfalso. apply (X a u d D U' RU RV).
    + apply (i_runner _ I a b u v d); assumption.
  - intros d w H. assert (Old_case : In w (o_waiting (s_cells s d)) -> exists u, th s' w u /\ top u d (PPark false)).
    { intros H'. destruct (i_waiting _ I _ _ H') as (u & U & P). exists u. split; [apply Other; [eapply Stays; eassumption|exact U]|exact P]. }
    destruct (static_eq_dec d c) as [->|N].
    + destruct (Hwait _ H) as [H'|[-> P]]; [apply Old_case, H'|exists t'; split; assumption].
    + rewrite Ec in H by exact N. apply Old_case, H.
  - intros d. destruct (static_eq_dec d c) as [->|N]; [exact Hnd|]. rewrite Ec by exact N. apply (i_nodup _ I).
  - assert (Keep : forall d w, (exists u, th s w u /\ top u d (PPark false)) -> exists u, th s' w u /\ top u d (PPark false)).
    { intros d w (u & U & P). exists u. split; [apply Other; [eapply Stays; eassumption|exact U]|exact P]. }
    intros j u d ws H P. destruct (Old _ _ H) as [[-> ->]|[D H']].
    + destruct (Hwake _ _ P) as [P'|(-> & Q & ->)].
      * destruct (i_waker _ I _ _ _ _ T P') as [A B]. split; [exact A|]. intros w Hw. apply Keep, B, Hw.
      * split; [apply (i_nodup _ I)|]. intros w Hw. apply Keep, (i_waiting _ I), Hw.
    + destruct (i_waker _ I _ _ _ _ H' P) as [A B]. split; [exact A|]. intros w Hw. apply Keep, B, Hw.
  - assert (X : forall j u d a b, j <> i -> th s j u -> top u d (PWake a) -> top t' d (PWake b) -> False).
    { intros j u d a b D U P P'. destruct (Hwake _ _ P') as [Q|(-> & Q & _)].
      - apply D. apply (i_one _ I j i u t d a b); assumption.
      - apply Q. apply (i_frame _ I _ _ _ _ U (top_in _ _ _ P)). }
    intros x y u v d a b U V P Q. destruct (Old _ _ U) as [[-> ->]|[D U']], (Old _ _ V) as [[-> ->]|[D' V']]; [reflexivity| | |].
    + exfalso. apply (X y v d b a D' V' Q P).
    + exfalso. apply (X x u d a b D U' P Q).
    + apply (i_one _ I x y u v d a b); assumption.
  - intros j u d H P. destruct (Old _ _ H) as [[-> ->]|[D H']].
    + destruct (Hpark _ P) as [-> Q]. left. exact Q.
    + destruct (i_parked _ I _ _ _ H' P) as [Q|(j' & u' & ws & U' & Q & W)].
      * destruct (static_eq_dec d c) as [->|N]; [|left; rewrite Ec by exact N; exact Q].
        destruct (Hlost _ Q) as [Q'|(ws & Q' & W)]; [left; exact Q'|]. right. exists i, t', ws. split; [exact Same|]. split; assumption.
      * right. destruct (Nat.eq_dec j' i) as [->|D'].
        -- exists i, t', ws. split; [exact Same|]. unfold th in U', T. rewrite T in U'. injection U' as <-. split; [eapply Hkept; eassumption|exact W].
        -- exists j', u', ws. split; [apply Other; assumption|]. split; assumption.
  - exact Hbuilt.
  - intros j u d v H Hv. destruct (Old _ _ H) as [[-> ->]|[D H']]; [eapply Hseen, Hv|eapply (i_seen _ I); eassumption].
Qed.

(** Only one thread moves. *)
Lemma inv_local s i t t' : inv s -> th s i t ->
  shape (t_stack t') ->
  (forall d p, In (d, p) (t_stack t') -> frame_ok (s_cells s d) d p) ->
  (forall d, run_of t' d <-> run_of t d) ->
  (forall d, ~ top t d (PPark false)) -> (forall d, ~ top t' d (PPark false)) ->
  (forall d w ws, top t d (PWake ws) -> In w ws -> False) -> (forall d ws, ~ top t' d (PWake ws)) ->
  (forall d v, In (d, v) (t_seen t') -> v = the_table d) ->
  inv (State (s_cells s) (upd (s_threads s) i t') (s_built s)).
Proof.
  intros I T Sh Fr Ru Np Np' Wk Wk' Se.
  apply (inv_update s _ i t t' (SList French) I T); cbn [s_threads s_cells s_built]; try assumption.
  - reflexivity.
  - reflexivity.
  - intros j u p _ _ _ F. exact F.
  - intros d R. left. apply Ru, R.
  - intros d _ R. apply Ru, R.
  - apply (i_incomplete _ I).
  - intros R. destruct (i_running _ I _ R) as (j & u & U & RU). destruct (Nat.eq_dec j i) as [->|D].
    + left. unfold th in U, T. rewrite T in U. injection U as <-. apply Ru, RU.
    + right. split; [exact R|]. intros RT. apply D. eapply (i_runner _ I); eassumption.
  - apply (i_complete _ I).
  - intros d P. destruct (Np' d P).
  - intros w H. left. exact H.
  - apply (i_nodup _ I).
  - intros w H. left. exact H.
  - intros d ws P. destruct (Wk' d ws P).
  - intros d w ws P W. destruct (Wk d w ws P W).
  - apply (i_built _ I).
Qed.
Definition plain (p : pc) : Prop := match p with PGet | PLoad | PLoop _ | PWait _ | PPark true | PRead => True | _ => False end.
Lemma shape_top c p p' below : shape ((c, p) :: below) -> p' <> PNeed -> shape ((c, p') :: below).
Proof. intros H N. inversion H; subst; [apply shape_one, N|apply shape_two; assumption]. Qed.
Lemma shape_frames s i todo c p p' below seen : inv s -> th s i (Thread todo ((c, p) :: below) seen) -> forall cells',
  (forall d, d <> c -> cells' d = s_cells s d) -> frame_ok (cells' c) c p' ->
  forall d q, In (d, q) ((c, p') :: below) -> frame_ok (cells' d) d q.
Proof.
  intros I T cells' Ec F d q [E|H]; [injection E as <- <-; exact F|]. pose proof (i_shape _ I _ _ T) as Sh. cbn [t_stack] in Sh.
  inversion Sh as [|? ? N|a b ? N ?]; subst; [destruct H|]. destruct H as [E|[]]. injection E as <- <-. rewrite Ec.
  - apply (i_frame _ I _ _ _ _ T). right. left. reflexivity.
  - intros ->. apply (needs_other _ _ N). reflexivity.
Qed.
Lemma top_cons todo c p below seen d q : top (Thread todo ((c, p) :: below) seen) d q -> d = c /\ q = p.
Proof. intros [b E]. cbn [t_stack] in E. injection E as -> -> _. split; reflexivity. Qed.
Lemma run_cons todo c p below seen todo' p' seen' d : ~ runs p -> run_of (Thread todo ((c, p) :: below) seen) d -> run_of (Thread todo' ((c, p') :: below) seen') d.
Proof. intros N (q & R & [E|H]); [injection E as -> ->; contradiction|]. exists q. split; [exact R|]. right. exact H. Qed.
Lemma inv_go s i todo c p p' below seen : inv s -> th s i (Thread todo ((c, p) :: below) seen) ->
  plain p \/ p = PWake [] -> plain p' -> frame_ok (s_cells s c) c p' ->
  inv (State (s_cells s) (upd (s_threads s) i (Thread todo ((c, p') :: below) seen)) (s_built s)).
Proof.
  intros I T P P' F.
  assert (N : ~ runs p) by (destruct P as [P| ->]; [intros R; destruct p; contradiction|intros []]).
  assert (N' : ~ runs p') by (intros R; destruct p'; contradiction).
  apply (inv_local s i _ _ I T); cbn [t_stack t_seen].
  - eapply shape_top; [exact (i_shape _ I _ _ T)|]. intros ->. destruct P'.
  - eapply shape_frames; [exact I|exact T|reflexivity|exact F].
  - intros d. split; apply run_cons; assumption.
  - intros d Q. apply top_cons in Q. destruct Q as [_ <-]. destruct P as [[]|P]; discriminate P.
  - intros d Q. apply top_cons in Q. destruct Q as [_ <-]. destruct P'.
  - intros d w ws Q W. apply top_cons in Q. destruct Q as [_ <-]. destruct P as [[]|P]. injection P as ->. destruct W.
  - intros d ws Q. apply top_cons in Q. destruct Q as [_ <-]. destruct P'.
  - intros d v Hv. eapply (i_seen _ I); [exact T|exact Hv].
Qed.

(** ** Steps that change a static *)
Lemma set_same f c k : set_cell f c k c = k.
Proof. unfold set_cell. destruct (static_eq_dec c c); [reflexivity|contradiction]. Qed.
Lemma set_other f c k d : d <> c -> set_cell f c k d = f d.
Proof. intros D. unfold set_cell. destruct (static_eq_dec d c); [contradiction|reflexivity]. Qed.
Lemma not_run_twice s i todo c p below seen : inv s -> th s i (Thread todo ((c, p) :: below) seen) -> ~ runs p -> ~ run_of (Thread todo ((c, p) :: below) seen) c.
Proof.
  intros I T N (q & R & [E|H]); [injection E as ->; contradiction|]. pose proof (i_shape _ I _ _ T) as Sh. cbn [t_stack] in Sh, H.
  inversion Sh as [|? ? ?|a b ? M ?]; subst; [destruct H|]. destruct H as [E|[]]. injection E as -> <-. apply (needs_other _ _ M). reflexivity.
Qed.
Lemma others_not_run s i j t u c p : inv s -> th s i t -> th s j u -> j <> i -> run_of t c -> In (c, p) (t_stack u) -> ~ runs p.
Proof. intros I T U D R H Rp. apply D. apply (i_runner _ I j i u t c); try assumption. exists p. split; assumption. Qed.

(* the first thread takes the static *)
Lemma inv_take s i todo c q below seen : inv s -> th s i (Thread todo ((c, PLoop q) :: below) seen) -> fst q = Incomplete -> queue (s_cells s c) = q ->
  inv (State (set_cell (s_cells s) c (Once Running (o_waiting (s_cells s c)) (o_value (s_cells s c)) (o_init (s_cells s c))))
    (upd (s_threads s) i (Thread todo ((c, PTake) :: below) seen)) (s_built s)).
Proof.
  intros I T Fq Q. assert (Ph : o_phase (s_cells s c) = Incomplete) by (rewrite <- Fq, <- Q; reflexivity).
  destruct (i_incomplete _ I _ Ph) as (W & In0 & V).
  eapply (inv_update s _ i _ _ c I T); cbn [s_threads s_cells s_built t_stack t_seen]; rewrite ?set_same; cbn [o_phase o_waiting o_value o_init].
  - reflexivity.
  - intros d D. apply set_other, D.
  - eapply shape_top; [exact (i_shape _ I _ _ T)|discriminate].
  - eapply shape_frames; [exact I|exact T|intros d D; apply set_other, D|]. rewrite set_same. split; [reflexivity|]. split; assumption.
  - intros j u p D U H F. destruct p as [| |qq|qq|[]| | | | | |]; cbn [frame_ok o_phase o_init o_value] in *; rewrite ?Ph in F; try exact Logic.I; try solve [discriminate F]; try solve [destruct F as [F _]; discriminate F].
    + destruct F as [F1 F2]. split; [intros E; discriminate (F1 E)|discriminate].
    + destruct F as [_ F]. destruct F. reflexivity.
  - intros d (p & R & [E|H]); [injection E as <- <-; right; split; [reflexivity|exact Ph]|]. left. exists p. split; [exact R|right; exact H].
  - intros d D. apply run_cons. intros [].
  - discriminate.
  - intros _. left. exists PTake. split; [exact Logic.I|left; reflexivity].
  - discriminate.
  - intros d P. apply top_cons in P. destruct P as [_ P]. discriminate P.
  - intros d P. apply top_cons in P. destruct P as [_ P]. discriminate P.
  - intros w H. left. exact H.
  - apply (i_nodup _ I).
  - intros w H. left. exact H.
  - intros d ws P. apply top_cons in P. destruct P as [_ P]. discriminate P.
  - intros d w ws P. apply top_cons in P. destruct P as [_ P]. discriminate P.
  - destruct (i_built _ I) as [B1 B2]. split; [exact B1|]. intros d. rewrite B2. destruct (static_eq_dec d c) as [->|D]; [rewrite set_same; reflexivity|rewrite set_other by exact D; reflexivity].
  - intros d v Hv. eapply (i_seen _ I); [exact T|exact Hv].
Qed.

(* a thread joins the queue *)
Lemma inv_enqueue s i todo c q below seen : inv s -> th s i (Thread todo ((c, PWait q) :: below) seen) -> queue (s_cells s c) = q ->
  inv (State (set_cell (s_cells s) c (Once (o_phase (s_cells s c)) (i :: o_waiting (s_cells s c)) (o_value (s_cells s c)) (o_init (s_cells s c))))
    (upd (s_threads s) i (Thread todo ((c, PPark false) :: below) seen)) (s_built s)).
Proof.
  intros I T Q. pose proof (i_frame _ I _ _ c _ T (or_introl eq_refl)) as [Fq _].
  assert (Ph : o_phase (s_cells s c) = Running) by (rewrite <- Fq, <- Q; reflexivity).
  eapply (inv_update s _ i _ _ c I T); cbn [s_threads s_cells s_built t_stack t_seen]; rewrite ?set_same; cbn [o_phase o_waiting o_value o_init].
  - reflexivity.
  - intros d D. apply set_other, D.
  - eapply shape_top; [exact (i_shape _ I _ _ T)|discriminate].
  - eapply shape_frames; [exact I|exact T|intros d D; apply set_other, D|]. exact Logic.I.
  - intros j u p D U H F. destruct p as [| |qq|qq|[]| | | | | |]; exact F.
  - intros d R. left. revert R. apply run_cons. intros [].
  - intros d D. apply run_cons. intros [].
  - rewrite Ph. discriminate.
  - intros _. right. split; [exact Ph|]. eapply not_run_twice; [exact I|exact T|intros []].
  - rewrite Ph. discriminate.
  - intros d P. apply top_cons in P. destruct P as [_ P]. discriminate P.
  - intros d P. apply top_cons in P. destruct P as [-> _]. split; [reflexivity|left; reflexivity].
  - intros w [<-|H]; [right; split; [reflexivity|]; exists below; reflexivity|left; exact H].
  - constructor; [|apply (i_nodup _ I)]. intros H. destruct (i_waiting _ I _ _ H) as (u & U & P). unfold th in U, T. rewrite T in U. injection U as <-.
    apply top_cons in P. destruct P as [_ P]. discriminate P.
  - intros w H. left. right. exact H.
  - intros d ws P. apply top_cons in P. destruct P as [_ P]. discriminate P.
  - intros d w ws P. apply top_cons in P. destruct P as [_ P]. discriminate P.
  - destruct (i_built _ I) as [B1 B2]. split; [exact B1|]. intros d. rewrite B2. destruct (static_eq_dec d c) as [->|D]; [rewrite set_same; reflexivity|rewrite set_other by exact D; reflexivity].
  - intros d v Hv. eapply (i_seen _ I); [exact T|exact Hv].
Qed.

(* the runner of a static moves on, the queue does not change *)
Lemma inv_runner s i t t' c k' built : inv s -> th s i t -> run_of t c -> run_of t' c ->
  o_phase k' = Running -> o_waiting k' = o_waiting (s_cells s c) ->
  shape (t_stack t') ->
  (forall d p, In (d, p) (t_stack t') -> frame_ok (if static_eq_dec d c then k' else s_cells s d) d p) ->
  (forall d, d <> c -> (run_of t' d <-> run_of t d)) ->
  (forall d, ~ top t d (PPark false)) -> (forall d, ~ top t' d (PPark false)) ->
  (forall d ws, ~ top t d (PWake ws)) -> (forall d ws, ~ top t' d (PWake ws)) ->
  (NoDup built /\ forall d, In d built <-> o_value (if static_eq_dec d c then k' else s_cells s d) <> None) ->
  t_seen t' = t_seen t ->
  inv (State (set_cell (s_cells s) c k') (upd (s_threads s) i t') built).
Proof.
  intros I T R R' Ph' Wt Sh Fr Ru Np Np' Wk Wk' Bu Se. pose proof (run_phase _ _ _ _ I T R) as Ph.
  eapply (inv_update s _ i t t' c I T); cbn [s_threads s_cells s_built]; rewrite ?set_same.
  - reflexivity.
  - intros d D. apply set_other, D.
  - exact Sh.
  - exact Fr.
  - intros j u p D U H F. pose proof (others_not_run _ _ _ _ _ _ _ I T U D R H) as NR.
    destruct p as [| |qq|qq|[]| | | | | |]; cbn [frame_ok] in *; rewrite ?Ph, ?Ph' in *; try exact F; destruct (NR Logic.I).
  - intros d Rd. left. destruct (static_eq_dec d c) as [->|D]; [exact R|apply Ru; assumption].
  - intros d D Rd. apply Ru; assumption.
  - rewrite Ph'. discriminate.
  - intros _. left. exact R'.
  - rewrite Ph'. discriminate.
  - exact Np.
  - intros d P. destruct (Np' d P).
  - intros w H. left. rewrite <- Wt. exact H.
  - rewrite Wt. apply (i_nodup _ I).
  - intros w H. left. rewrite Wt. exact H.
  - intros d ws P. destruct (Wk' d ws P).
  - intros d w ws P. destruct (Wk d ws P).
  - exact Bu.
  - intros d v Hv. rewrite Se in Hv. eapply (i_seen _ I); eassumption.
Qed.
Lemma built_same s c k' : inv s -> o_value k' = o_value (s_cells s c) ->
  NoDup (s_built s) /\ forall d, In d (s_built s) <-> o_value (if static_eq_dec d c then k' else s_cells s d) <> None.
Proof.
  intros I E. destruct (i_built _ I) as [B1 B2]. split; [exact B1|]. intros d. rewrite B2. destruct (static_eq_dec d c) as [->|D]; [rewrite E|]; reflexivity.
Qed.
Lemma shape_frames_if s i todo c p p' below seen k' : inv s -> th s i (Thread todo ((c, p) :: below) seen) -> frame_ok k' c p' ->
  forall d q, In (d, q) ((c, p') :: below) -> frame_ok (if static_eq_dec d c then k' else s_cells s d) d q.
Proof.
  intros I T F d q H. pose proof (shape_frames s i todo c p p' below seen I T (set_cell (s_cells s) c k') (fun d D => set_other _ c k' d D)) as X.
  rewrite set_same in X. exact (X F d q H).
Qed.

(* the initialiser is taken *)
Lemma inv_init s i todo c below seen : inv s -> th s i (Thread todo ((c, PTake) :: below) seen) -> needs c = None ->
  inv (State (set_cell (s_cells s) c (Once (o_phase (s_cells s c)) (o_waiting (s_cells s c)) (o_value (s_cells s c)) false))
    (upd (s_threads s) i (Thread todo ((c, PBuild None) :: below) seen)) (s_built s)).
Proof.
  intros I T N. pose proof (i_frame _ I _ _ c _ T (or_introl eq_refl)) as (Ph & _ & V).
  apply (inv_runner s i _ _ c _ _ I T); cbn [t_stack t_seen].
  - exists PTake. split; [exact Logic.I|left; reflexivity].
  - exists (PBuild None). split; [exact Logic.I|left; reflexivity].
  - exact Ph.
  - reflexivity.
  - eapply shape_top; [exact (i_shape _ I _ _ T)|discriminate].
  - eapply shape_frames_if; [exact I|exact T|]. split; [exact Ph|]. split; [exact V|]. unfold arg_ok. rewrite N. reflexivity.
  - intros d D. split; intros (q & R & [E|H]); try (injection E as <- <-; destruct D; reflexivity); exists q; (split; [exact R|right; exact H]).
  - intros d P. apply top_cons in P. destruct P as [_ P]. discriminate P.
  - intros d P. apply top_cons in P. destruct P as [_ P]. discriminate P.
  - intros d ws P. apply top_cons in P. destruct P as [_ P]. discriminate P.
  - intros d ws P. apply top_cons in P. destruct P as [_ P]. discriminate P.
  - apply built_same; [exact I|reflexivity].
  - reflexivity.
Qed.
Lemma inv_need s i todo c d below seen : inv s -> th s i (Thread todo ((c, PTake) :: below) seen) -> needs c = Some d ->
  inv (State (set_cell (s_cells s) c (Once (o_phase (s_cells s c)) (o_waiting (s_cells s c)) (o_value (s_cells s c)) false))
    (upd (s_threads s) i (Thread todo ((d, PGet) :: (c, PNeed) :: below) seen)) (s_built s)).
Proof.
  intros I T N. pose proof (i_frame _ I _ _ c _ T (or_introl eq_refl)) as (Ph & _ & V).
  assert (B : below = []).
  { pose proof (i_shape _ I _ _ T) as Sh. cbn [t_stack] in Sh. inversion Sh as [|? ? ?|a b ? M ?]; subst; [reflexivity|]. apply needs_none in M. rewrite M in N. discriminate N. }
  subst below. apply (inv_runner s i _ _ c _ _ I T); cbn [t_stack t_seen].
  - exists PTake. split; [exact Logic.I|left; reflexivity].
  - exists PNeed. split; [exact Logic.I|right; left; reflexivity].
  - exact Ph.
  - reflexivity.
  - apply shape_two; [exact N|discriminate].
  - intros e q [E|[E|[]]]; injection E as <- <-; [exact Logic.I|]. destruct (static_eq_dec c c) as [_|X]; [|destruct X; reflexivity]. split; assumption.
  - intros e D. split; intros (q & R & H).
    + destruct H as [E|[E|[]]]; injection E as -> <-; [destruct R|destruct D; reflexivity].
    + destruct H as [E|[]]; injection E as -> <-. destruct D; reflexivity.
  - intros e P. apply top_cons in P. destruct P as [_ P]. discriminate P.
  - intros e P. apply top_cons in P. destruct P as [_ P]. discriminate P.
  - intros e ws P. apply top_cons in P. destruct P as [_ P]. discriminate P.
  - intros e ws P. apply top_cons in P. destruct P as [_ P]. discriminate P.
  - apply built_same; [exact I|reflexivity].
  - reflexivity.
Qed.
(* the value is stored *)
Lemma inv_store s i todo c arg below seen : inv s -> th s i (Thread todo ((c, PBuild arg) :: below) seen) ->
  inv (State (set_cell (s_cells s) c (Once (o_phase (s_cells s c)) (o_waiting (s_cells s c)) (Some (the_table c)) (o_init (s_cells s c))))
    (upd (s_threads s) i (Thread todo ((c, PDone) :: below) seen)) (c :: s_built s)).
Proof.
  intros I T. pose proof (i_frame _ I _ _ c _ T (or_introl eq_refl)) as (Ph & V & _).
  apply (inv_runner s i _ _ c _ _ I T); cbn [t_stack t_seen].
  - exists (PBuild arg). split; [exact Logic.I|left; reflexivity].
  - exists PDone. split; [exact Logic.I|left; reflexivity].
  - exact Ph.
  - reflexivity.
  - eapply shape_top; [exact (i_shape _ I _ _ T)|discriminate].
  - eapply shape_frames_if; [exact I|exact T|]. split; [exact Ph|reflexivity].
  - intros d D. split; intros (q & R & [E|H]); try (injection E as <- <-; destruct D; reflexivity); exists q; (split; [exact R|right; exact H]).
  - intros d P. apply top_cons in P. destruct P as [_ P]. discriminate P.
  - intros d P. apply top_cons in P. destruct P as [_ P]. discriminate P.
  - intros d ws P. apply top_cons in P. destruct P as [_ P]. discriminate P.
  - intros d ws P. apply top_cons in P. destruct P as [_ P]. discriminate P.
  - destruct (i_built _ I) as [B1 B2]. split; [constructor; [rewrite B2, V; intros X; apply X; reflexivity|exact B1]|].
    intros d. cbn [In]. destruct (static_eq_dec d c) as [->|D]; [split; [discriminate|intros _; left; reflexivity]|]. rewrite B2. split; [intros [E|H]; [destruct D; symmetry; exact E|exact H]|intros H; right; exact H].
  - reflexivity.
Qed.
(* the static is complete *)
Lemma inv_done s i todo c below seen : inv s -> th s i (Thread todo ((c, PDone) :: below) seen) ->
  inv (State (set_cell (s_cells s) c (Once Complete [] (o_value (s_cells s c)) (o_init (s_cells s c))))
    (upd (s_threads s) i (Thread todo ((c, PWake (o_waiting (s_cells s c))) :: below) seen)) (s_built s)).
Proof.
  intros I T. pose proof (i_frame _ I _ _ c _ T (or_introl eq_refl)) as (Ph & V).
  assert (R : run_of (Thread todo ((c, PDone) :: below) seen) c) by (exists PDone; split; [exact Logic.I|left; reflexivity]).
  eapply (inv_update s _ i _ _ c I T); cbn [s_threads s_cells s_built t_stack t_seen]; rewrite ?set_same; cbn [o_phase o_waiting o_value o_init].
  - reflexivity.
  - intros d D. apply set_other, D.
  - eapply shape_top; [exact (i_shape _ I _ _ T)|discriminate].
  - eapply shape_frames; [exact I|exact T|intros d D; apply set_other, D|]. rewrite set_same. reflexivity.
  - intros j u p D U H F. pose proof (others_not_run _ _ _ _ _ _ _ I T U D R H) as NR.
    destruct p as [| |qq|qq|[]| | | | | |]; cbn [frame_ok o_phase] in *; try exact Logic.I; try (destruct (NR Logic.I)); try reflexivity.
    + split; [intros _; reflexivity|discriminate].
    + destruct F as [F _]. split; [exact F|discriminate].
  - intros d (q & Rq & [E|H]); [injection E as <- <-; destruct Rq|]. left. exists q. split; [exact Rq|right; exact H].
  - intros d D (q & Rq & [E|H]); [injection E as <- <-; destruct D; reflexivity|]. exists q. split; [exact Rq|right; exact H].
  - discriminate.
  - discriminate.
  - intros _. split; [reflexivity|exact V].
  - intros d P. apply top_cons in P. destruct P as [_ P]. discriminate P.
  - intros d P. apply top_cons in P. destruct P as [_ P]. discriminate P.
  - intros w [].
  - constructor.
  - intros w H. right. exists (o_waiting (s_cells s c)). split; [exists below; reflexivity|exact H].
  - intros d ws P. apply top_cons in P. destruct P as [-> P]. injection P as ->. right. split; [reflexivity|]. rewrite Ph. split; [discriminate|reflexivity].
  - intros d w ws P. apply top_cons in P. destruct P as [_ P]. discriminate P.
  - destruct (i_built _ I) as [B1 B2]. split; [exact B1|]. intros d. rewrite B2. destruct (static_eq_dec d c) as [->|D]; [rewrite set_same; reflexivity|rewrite set_other by exact D; reflexivity].
  - intros d v Hv. eapply (i_seen _ I); [exact T|exact Hv].
Qed.

(* a waiting thread is signalled *)
Lemma inv_wake s i w todo c ws below seen todo' below' seen' : inv s -> th s i (Thread todo ((c, PWake (w :: ws)) :: below) seen) ->
  th s w (Thread todo' ((c, PPark false) :: below') seen') ->
  inv (State (s_cells s) (upd (upd (s_threads s) w (Thread todo' ((c, PPark true) :: below') seen')) i (Thread todo ((c, PWake ws) :: below) seen)) (s_built s)).
Proof.
  intros I T U. set (t' := Thread todo ((c, PWake ws) :: below) seen). set (u' := Thread todo' ((c, PPark true) :: below') seen').
  set (s' := State _ _ _).
  assert (D : w <> i). { intros ->. unfold th in T, U. rewrite T in U. discriminate U. }
  assert (Ti : th s' i t'). { unfold th. cbn [s' s_threads]. eapply upd_same. rewrite upd_other; [exact T|]. intros E. apply D. symmetry. exact E. }
  assert (Tw : th s' w u'). { unfold th. cbn [s' s_threads]. rewrite upd_other by exact D. eapply upd_same, U. }
  assert (To : forall j v, j <> i -> j <> w -> (th s' j v <-> th s j v)). { intros j v A B. unfold th. cbn [s' s_threads]. rewrite !upd_other by assumption. reflexivity. }
  assert (Old : forall j v, th s' j v -> (j = i /\ v = t') \/ (j = w /\ v = u') \/ (j <> i /\ j <> w /\ th s j v)).
  { intros j v H. destruct (Nat.eq_dec j i) as [->|A]; [left; split; [reflexivity|]; unfold th in H, Ti; rewrite H in Ti; injection Ti as ->; reflexivity|].
    destruct (Nat.eq_dec j w) as [->|B]; [right; left; split; [reflexivity|]; unfold th in H, Tw; rewrite H in Tw; injection Tw as ->; reflexivity|].
    right. right. split; [exact A|]. split; [exact B|]. apply To; assumption. }
  assert (Ph : o_phase (s_cells s c) = Complete) by exact (i_frame _ I _ _ c (PWake (w :: ws)) T (or_introl eq_refl)).
  destruct (i_waker _ I _ _ _ _ T (ex_intro _ below eq_refl)) as [ND AP]. inversion ND as [|? ? Nw ND' Ew]. subst.
  assert (Run : forall j v d, th s' j v -> run_of v d -> exists v', th s j v' /\ run_of v' d).
  { intros j v d H R. destruct (Old _ _ H) as [[-> ->]|[[-> ->]|(A & B & H')]].
    - eexists. split; [exact T|]. revert R. apply run_cons. intros [].
    - eexists. split; [exact U|]. revert R. apply run_cons. intros [].
    - exists v. split; assumption. }
  assert (Parked : forall j v d, th s j v -> top v d (PPark false) -> j <> w -> th s' j v).
  { intros j v d H P B. apply To; [|exact B|exact H]. intros ->. unfold th in H, T. rewrite T in H. injection H as <-. apply top_cons in P. destruct P as [_ P]. discriminate P. }
  assert (Wc : o_waiting (s_cells s c) = []) by apply (i_complete _ I _ Ph).
  assert (Notw : forall d, In w (o_waiting (s_cells s d)) -> False).
  { intros d H. destruct (i_waiting _ I _ _ H) as (v & V & P). unfold th in V, U. rewrite U in V. injection V as <-. apply top_cons in P. destruct P as [-> _]. rewrite Wc in H. destruct H. }
  assert (Onew : forall j v d a, th s j v -> top v d (PWake a) -> In w a -> j = i).
  { intros j v d a H P W. destruct (i_waker _ I _ _ _ _ H P) as [_ Q]. destruct (Q _ W) as (v' & V' & P'). unfold th in V', U. rewrite U in V'. injection V' as <-.
    apply top_cons in P'. destruct P' as [-> _]. eapply (i_one _ I); [exact H|exact T|exact P|exists below; reflexivity]. }
  constructor; cbn [s' s_cells s_built].
  - intros j v H. destruct (Old _ _ H) as [[-> ->]|[[-> ->]|(A & B & H')]]; [| |apply (i_shape _ I _ _ H')].
    + eapply shape_top; [exact (i_shape _ I _ _ T)|discriminate].
    + eapply shape_top; [exact (i_shape _ I _ _ U)|discriminate].
  - intros j v d p H Hp. destruct (Old _ _ H) as [[-> ->]|[[-> ->]|(A & B & H')]]; [| |apply (i_frame _ I _ _ _ _ H' Hp)].
    + eapply (shape_frames s i); [exact I|exact T|reflexivity| |exact Hp]. exact Ph.
    + eapply (shape_frames s w); [exact I|exact U|reflexivity| |exact Hp]. exact Ph.
  - apply (i_incomplete _ I).
  - intros d H. destruct (i_running _ I _ H) as (j & v & V & R). destruct (Nat.eq_dec j i) as [->|A].
    + exists i, t'. split; [exact Ti|]. unfold th in V, T. rewrite T in V. injection V as <-. revert R. apply run_cons. intros [].
    + destruct (Nat.eq_dec j w) as [->|B].
      * exists w, u'. split; [exact Tw|]. unfold th in V, U. rewrite U in V. injection V as <-. revert R. apply run_cons. intros [].
      * exists j, v. split; [apply To; assumption|exact R].
  - apply (i_complete _ I).
  - intros a b x y d X Y RX RY. destruct (Run _ _ _ X RX) as (x' & X' & RX'). destruct (Run _ _ _ Y RY) as (y' & Y' & RY'). eapply (i_runner _ I); eassumption.
  - intros d j H. destruct (i_waiting _ I _ _ H) as (v & V & P). exists v. split; [|exact P]. eapply Parked; [exact V|exact P|]. intros ->. apply (Notw d H).
  - apply (i_nodup _ I).
  - intros j v d a H P. destruct (Old _ _ H) as [[-> ->]|[[-> ->]|(A & B & H')]].
    + apply top_cons in P. destruct P as [-> P]. injection P as ->. split; [exact ND'|]. intros x X. destruct (AP x (or_intror X)) as (v & V & Q). exists v. split; [|exact Q].
      eapply Parked; [exact V|exact Q|]. intros ->. contradiction.
    + apply top_cons in P. destruct P as [_ P]. discriminate P.
    + destruct (i_waker _ I _ _ _ _ H' P) as [N Q]. split; [exact N|]. intros x X. destruct (Q x X) as (v' & V' & Q'). exists v'. split; [|exact Q'].
      eapply Parked; [exact V'|exact Q'|]. intros ->. apply A. eapply Onew; eassumption.
  - assert (W' : forall j v d a, th s' j v -> top v d (PWake a) -> exists v' a', th s j v' /\ top v' d (PWake a')).
    { intros j v d a H P. destruct (Old _ _ H) as [[-> ->]|[[-> ->]|(A & B & H')]].
      - apply top_cons in P. destruct P as [-> _]. eexists _, _. split; [exact T|exists below; reflexivity].
      - apply top_cons in P. destruct P as [_ P]. discriminate P.
      - exists v, a. split; assumption. }
    intros x y v v' d a b X Y P Q. destruct (W' _ _ _ _ X P) as (x' & a' & X' & P'). destruct (W' _ _ _ _ Y Q) as (y' & b' & Y' & Q'). eapply (i_one _ I); eassumption.
  - intros j v d H P. destruct (Old _ _ H) as [[-> ->]|[[-> ->]|(A & B & H')]].
    + apply top_cons in P. destruct P as [_ P]. discriminate P.
    + apply top_cons in P. destruct P as [_ P]. discriminate P.
    + destruct (i_parked _ I _ _ _ H' P) as [Q|(j' & v' & a & V' & Q & W)]; [left; exact Q|]. right. destruct (Nat.eq_dec j' i) as [->|A'].
      * unfold th in V', T. rewrite T in V'. injection V' as <-. apply top_cons in Q. destruct Q as [-> Q]. injection Q as ->.
        destruct W as [W|W]; [destruct B; symmetry; exact W|]. exists i, t', ws. split; [exact Ti|]. split; [exists below; reflexivity|exact W].
      * exists j', v', a. split; [|split; assumption]. apply To; [exact A'| |exact V']. intros ->. unfold th in V', U. rewrite U in V'. injection V' as <-.
        apply top_cons in Q. destruct Q as [_ Q]. discriminate Q.
  - apply (i_built _ I).
  - intros j v d x H X. destruct (Old _ _ H) as [[-> ->]|[[-> ->]|(A & B & H')]].
    + eapply (i_seen _ I); [exact T|exact X].
    + eapply (i_seen _ I); [exact U|exact X].
    + eapply (i_seen _ I); eassumption.
Qed.

(* the result is returned *)
Lemma inv_seen s i todo c seen : inv s -> th s i (Thread todo [(c, PRead)] seen) ->
  inv (State (s_cells s) (upd (s_threads s) i (Thread todo [] (seen ++ [(c, the_table c)]))) (s_built s)).
Proof.
  intros I T. apply (inv_local s i _ _ I T); cbn [t_stack t_seen].
  - constructor.
  - intros d p [].
  - intros d. split; [intros (p & _ & [])|]. intros (p & R & [E|[]]). injection E as <- <-. destruct R.
  - intros d P. apply top_cons in P. destruct P as [_ P]. discriminate P.
  - intros d [b E]. discriminate E.
  - intros d w ws P. apply top_cons in P. destruct P as [_ P]. discriminate P.
  - intros d ws [b E]. discriminate E.
  - intros d v H. apply in_app_or in H. destruct H as [H|[E|[]]]; [eapply (i_seen _ I); [exact T|exact H]|]. injection E as <- <-. reflexivity.
Qed.
Lemma inv_return s i todo c d seen : inv s -> th s i (Thread todo [(d, PRead); (c, PNeed)] seen) ->
  inv (State (s_cells s) (upd (s_threads s) i (Thread todo [(c, PBuild (Some (the_table d)))] seen)) (s_built s)).
Proof.
  intros I T. pose proof (i_frame _ I _ _ c _ T (or_intror (or_introl eq_refl))) as (Ph & V).
  assert (N : needs c = Some d). { pose proof (i_shape _ I _ _ T) as Sh. cbn [t_stack] in Sh. inversion Sh; subst. assumption. }
  apply (inv_local s i _ _ I T); cbn [t_stack t_seen].
  - apply shape_one. discriminate.
  - intros e p [E|[]]. injection E as <- <-. split; [exact Ph|]. split; [exact V|]. unfold arg_ok. rewrite N. reflexivity.
  - intros e. split; intros (p & R & H).
    + destruct H as [E|[]]. injection E as <- <-. exists PNeed. split; [exact Logic.I|right; left; reflexivity].
    + destruct H as [E|[E|[]]]; injection E as <- <-; [destruct R|]. exists (PBuild (Some (the_table d))). split; [exact Logic.I|left; reflexivity].
  - intros e P. apply top_cons in P. destruct P as [_ P]. discriminate P.
  - intros e P. apply top_cons in P. destruct P as [_ P]. discriminate P.
  - intros e w ws P. apply top_cons in P. destruct P as [_ P]. discriminate P.
  - intros e ws P. apply top_cons in P. destruct P as [_ P]. discriminate P.
  - intros e v H. eapply (i_seen _ I); [exact T|exact H].
Qed.
Lemma inv_begin s i c todo seen : inv s -> th s i (Thread (c :: todo) [] seen) ->
  inv (State (s_cells s) (upd (s_threads s) i (Thread todo [(c, PGet)] seen)) (s_built s)).
Proof.
  intros I T. apply (inv_local s i _ _ I T); cbn [t_stack t_seen].
  - apply shape_one. discriminate.
  - intros e p [E|[]]. injection E as <- <-. exact Logic.I.
  - intros e. split; [|intros (p & _ & [])]. intros (p & R & [E|[]]). injection E as <- <-. destruct R.
  - intros e [b E]. discriminate E.
  - intros e P. apply top_cons in P. destruct P as [_ P]. discriminate P.
  - intros e w ws [b E]. discriminate E.
  - intros e ws P. apply top_cons in P. destruct P as [_ P]. discriminate P.
  - intros e v H. eapply (i_seen _ I); [exact T|exact H].
Qed.

(** ** The steps *)
Inductive local (k : once) : pc -> pc -> Prop :=
| l_get : o_phase k = Complete -> local k PGet PRead
| l_miss : o_phase k <> Complete -> local k PGet PLoad
| l_load : local k PLoad (PLoop (queue k))
| l_complete q : fst q = Complete -> local k (PLoop q) PRead
| l_retry q : fst q = Incomplete -> queue k <> q -> local k (PLoop q) (PLoop (queue k))
| l_running q : fst q = Running -> local k (PLoop q) (PWait q)
| l_rewait q : queue k <> q -> o_phase k = fst q -> local k (PWait q) (PWait (queue k))
| l_reload q : o_phase k <> fst q -> local k (PWait q) PLoad
| l_unpark : local k (PPark true) PLoad
| l_woken : local k (PWake []) PRead.
Inductive move (s : state) (i : nat) : state -> Prop :=
| m_begin c todo seen : th s i (Thread (c :: todo) [] seen) ->
    move s i (State (s_cells s) (upd (s_threads s) i (Thread todo [(c, PGet)] seen)) (s_built s))
| m_go todo c p p' below seen : th s i (Thread todo ((c, p) :: below) seen) -> local (s_cells s c) p p' ->
    move s i (State (s_cells s) (upd (s_threads s) i (Thread todo ((c, p') :: below) seen)) (s_built s))
| m_take todo c q below seen : th s i (Thread todo ((c, PLoop q) :: below) seen) -> fst q = Incomplete -> queue (s_cells s c) = q ->
    move s i (State (set_cell (s_cells s) c (Once Running (o_waiting (s_cells s c)) (o_value (s_cells s c)) (o_init (s_cells s c))))
      (upd (s_threads s) i (Thread todo ((c, PTake) :: below) seen)) (s_built s))
| m_enqueue todo c q below seen : th s i (Thread todo ((c, PWait q) :: below) seen) -> queue (s_cells s c) = q ->
    move s i (State (set_cell (s_cells s) c (Once (o_phase (s_cells s c)) (i :: o_waiting (s_cells s c)) (o_value (s_cells s c)) (o_init (s_cells s c))))
      (upd (s_threads s) i (Thread todo ((c, PPark false) :: below) seen)) (s_built s))
| m_init todo c below seen : th s i (Thread todo ((c, PTake) :: below) seen) -> needs c = None ->
    move s i (State (set_cell (s_cells s) c (Once (o_phase (s_cells s c)) (o_waiting (s_cells s c)) (o_value (s_cells s c)) false))
      (upd (s_threads s) i (Thread todo ((c, PBuild None) :: below) seen)) (s_built s))
| m_need todo c d below seen : th s i (Thread todo ((c, PTake) :: below) seen) -> needs c = Some d ->
    move s i (State (set_cell (s_cells s) c (Once (o_phase (s_cells s c)) (o_waiting (s_cells s c)) (o_value (s_cells s c)) false))
      (upd (s_threads s) i (Thread todo ((d, PGet) :: (c, PNeed) :: below) seen)) (s_built s))
| m_store todo c arg below seen : th s i (Thread todo ((c, PBuild arg) :: below) seen) ->
    move s i (State (set_cell (s_cells s) c (Once (o_phase (s_cells s c)) (o_waiting (s_cells s c)) (Some (the_table c)) (o_init (s_cells s c))))
      (upd (s_threads s) i (Thread todo ((c, PDone) :: below) seen)) (c :: s_built s))
| m_done todo c below seen : th s i (Thread todo ((c, PDone) :: below) seen) ->
    move s i (State (set_cell (s_cells s) c (Once Complete [] (o_value (s_cells s c)) (o_init (s_cells s c))))
      (upd (s_threads s) i (Thread todo ((c, PWake (o_waiting (s_cells s c))) :: below) seen)) (s_built s))
| m_wake w todo c ws below seen todo' below' seen' : th s i (Thread todo ((c, PWake (w :: ws)) :: below) seen) ->
    th s w (Thread todo' ((c, PPark false) :: below') seen') ->
    move s i (State (s_cells s) (upd (upd (s_threads s) w (Thread todo' ((c, PPark true) :: below') seen')) i (Thread todo ((c, PWake ws) :: below) seen)) (s_built s))
| m_seen todo c seen : th s i (Thread todo [(c, PRead)] seen) ->
    move s i (State (s_cells s) (upd (s_threads s) i (Thread todo [] (seen ++ [(c, the_table c)]))) (s_built s))
| m_return todo c d seen : th s i (Thread todo [(d, PRead); (c, PNeed)] seen) ->
    move s i (State (s_cells s) (upd (s_threads s) i (Thread todo [(c, PBuild (Some (the_table d)))] seen)) (s_built s)).

Lemma step_cases s i : inv s ->
  (step s i = Blocked /\ forall t, th s i t -> finished t \/ exists c, top t c (PPark false)) \/ (exists s', step s i = Next s' /\ move s i s').
Proof.
  intros I. unfold step. destruct (nth_error (s_threads s) i) as [[todo [|[c p] below] seen]|] eqn:T.
  - destruct todo as [|c todo].
    + left. split; [reflexivity|]. intros t H. unfold th in H. rewrite T in H. injection H as <-. left. split; reflexivity.
    + right. eexists. split; [reflexivity|]. apply m_begin, T.
  - pose proof (i_frame _ I _ _ c p T (or_introl eq_refl)) as F. pose proof (i_shape _ I _ _ T) as Sh. cbn [t_stack] in Sh.
    assert (Go : forall p', local (s_cells s c) p p' -> (exists s', Next (State (s_cells s) (upd (s_threads s) i (Thread todo ((c, p') :: below) seen)) (s_built s)) = Next s' /\ move s i s')).
    { intros p' L. eexists. split; [reflexivity|]. eapply m_go; [exact T|exact L]. }
    cbv zeta. destruct p as [| |q|q|b| | |arg| |ws|]; cbn [frame_ok] in F.
    + right. destruct (o_phase (s_cells s c)) eqn:Ph; apply Go; constructor; rewrite Ph; (reflexivity || discriminate).
    + right. apply Go. constructor.
    + right. destruct (fst q) eqn:Fq.
      * destruct (snapshot_eqb (queue (s_cells s c)) q) eqn:E.
        -- apply snapshot_eqb_spec in E. eexists. split; [reflexivity|]. eapply m_take; eassumption.
        -- apply Go. constructor; [exact Fq|]. intros H. apply snapshot_eqb_spec in H. rewrite H in E. discriminate E.
      * apply Go. constructor. exact Fq.
      * apply Go. constructor. exact Fq.
    + right. destruct (snapshot_eqb (queue (s_cells s c)) q) eqn:E.
      * apply snapshot_eqb_spec in E. eexists. split; [reflexivity|]. eapply m_enqueue; eassumption.
      * assert (N : queue (s_cells s c) <> q) by (intros H; apply snapshot_eqb_spec in H; rewrite H in E; discriminate E).
        destruct (phase_eqb (o_phase (s_cells s c)) (fst q)) eqn:P; apply Go; constructor.
        -- exact N.
        -- apply phase_eqb_spec, P.
        -- intros H. apply phase_eqb_spec in H. rewrite H in P. discriminate P.
    + destruct b; [right; apply Go; constructor|left]. split; [reflexivity|]. intros t H. unfold th in H. rewrite T in H. injection H as <-. right. exists c, below. reflexivity.
    + right. destruct F as (_ & In0 & _). rewrite In0. destruct (needs c) as [d|] eqn:N; (eexists; split; [reflexivity|]); [eapply m_need|eapply m_init]; eassumption.
    + inversion Sh; subst; congruence.
    + right. destruct F as (_ & _ & A). rewrite (build_ok c arg A). eexists. split; [reflexivity|]. eapply m_store, T.
    + right. eexists. split; [reflexivity|]. eapply m_done, T.
    + right. destruct ws as [|w ws]; [apply Go; constructor|].
      destruct (i_waker _ I _ _ _ _ T (ex_intro _ below eq_refl)) as [_ AP]. destruct (AP w (or_introl eq_refl)) as ([todo' st' seen'] & U & [below' E]). cbn [t_stack] in E. subst st'.
      unfold th in U. rewrite U. destruct (static_eq_dec c c) as [_|N]; [|contradiction]. eexists. split; [reflexivity|]. eapply m_wake; [exact T|exact U].
    + right. destruct (i_complete _ I _ F) as [_ V]. rewrite V. inversion Sh as [|? ? ?|a b ? N ?]; subst.
      * eexists. split; [reflexivity|]. apply m_seen, T.
      * eexists. split; [reflexivity|]. apply m_return, T.
  - left. split; [reflexivity|]. intros t H. unfold th in H. rewrite T in H. discriminate H.
Qed.
Lemma local_inv s i todo c p p' below seen : inv s -> th s i (Thread todo ((c, p) :: below) seen) -> local (s_cells s c) p p' ->
  (plain p \/ p = PWake []) /\ plain p' /\ frame_ok (s_cells s c) c p'.
Proof.
  intros I T L. pose proof (i_frame _ I _ _ c p T (or_introl eq_refl)) as F. inversion L; subst; cbn [frame_ok] in F; cbn [plain frame_ok queue fst].
  - tauto.
  - tauto.
  - split; [tauto|]. split; [tauto|]. split; [tauto|]. intros ->. discriminate.
  - split; [tauto|]. split; [tauto|]. apply F. assumption.
  - split; [tauto|]. split; [tauto|]. split; [tauto|]. intros ->. discriminate.
  - split; [tauto|]. split; [tauto|]. split; [assumption|]. apply F. assumption.
  - split; [tauto|]. split; [tauto|]. destruct F as [Fq F]. split; [|exact F]. congruence.
  - tauto.
  - tauto.
  - split; [tauto|]. split; [tauto|]. exact F.
Qed.
Lemma move_inv s i s' : inv s -> move s i s' -> inv s'.
Proof.
  intros I M. destruct M as [? ? ? T|? ? ? ? ? ? T L|? ? ? ? ? T Q1 Q2|? ? ? ? ? T Q|? ? ? ? T N|? ? ? ? ? T N|? ? ? ? ? T|? ? ? ? T|? ? ? ? ? ? ? ? ? T U|? ? ? T|? ? ? ? T].
  - apply inv_begin; assumption.
  - destruct (local_inv _ _ _ _ _ _ _ _ I T L) as (A & B & C). eapply inv_go; eassumption.
  - eapply inv_take; eassumption.
  - eapply inv_enqueue; eassumption.
  - apply inv_init; assumption.
  - apply inv_need; assumption.
  - eapply inv_store; eassumption.
  - apply inv_done; assumption.
  - apply inv_wake; assumption.
  - apply inv_seen; assumption.
  - apply inv_return; assumption.
Qed.
Lemma th_start programs i t : th (start programs) i t -> exists p, In p programs /\ t = Thread p [] [].
Proof.
  unfold th. cbn [start s_threads]. intros H. apply nth_error_In in H. apply in_map_iff in H. destruct H as (p & <- & H). exists p. split; [exact H|reflexivity].
Qed.
Lemma inv_start programs : inv (start programs).
Proof.
  assert (X : forall i t, th (start programs) i t -> t_stack t = [] /\ t_seen t = []) by (intros i t H; destruct (th_start _ _ _ H) as (p & _ & ->); split; reflexivity).
  assert (Y : forall i t c p, th (start programs) i t -> top t c p -> False) by (intros i t c p H [b E]; rewrite (proj1 (X _ _ H)) in E; discriminate E).
  assert (Z : forall i t c, th (start programs) i t -> run_of t c -> False) by (intros i t c H (p & _ & E); rewrite (proj1 (X _ _ H)) in E; destruct E).
  constructor; cbn [start s_cells s_built o_phase o_waiting o_init o_value].
  - intros i t H. rewrite (proj1 (X _ _ H)). constructor.
  - intros i t c p H E. rewrite (proj1 (X _ _ H)) in E. destruct E.
  - intros c _. repeat split.
  - intros c E. discriminate E.
  - intros c E. discriminate E.
  - intros i j t u c H _ R _. destruct (Z _ _ _ H R).
  - intros c w [].
  - intros c. constructor.
  - intros j u c ws H P. destruct (Y _ _ _ _ H P).
  - intros i j t u c a b H _ P _. destruct (Y _ _ _ _ H P).
  - intros i t c H P. destruct (Y _ _ _ _ H P).
  - split; [constructor|]. intros c. split; [intros []|]. intros E. apply E. reflexivity.
  - intros i t c v H E. rewrite (proj2 (X _ _ H)) in E. destruct E.
Qed.
Lemma exec_inv schedule : forall s, inv s -> exists s', exec s schedule = Next s' /\ inv s'.
Proof.
  induction schedule as [|i schedule IH]; intros s I; cbn [exec]; [exists s; split; [reflexivity|exact I]|].
  destruct (step_cases s i I) as [[E _]|(s' & E & M)]; rewrite E; [apply IH, I|apply IH, (move_inv _ _ _ I M)].
Qed.

(** ** What a thread has done and has yet to do *)
Fixpoint bottom (st : list (static * pc)) : list static :=
  match st with
  | [] => []
  | [(c, _)] => [c]
  | _ :: st' => bottom st'
  end.
Definition prog (t : thread) : list static := map fst (t_seen t) ++ bottom (t_stack t) ++ t_todo t.
Lemma map_upd {A B} (f : A -> B) l i x y : nth_error l i = Some y -> f x = f y -> map f (upd l i x) = map f l.
Proof.
  revert i. induction l as [|z l IH]; intros i H E; [destruct i; discriminate H|]. destruct i as [|i]; cbn [upd map nth_error] in *.
  - injection H as ->. rewrite E. reflexivity.
  - rewrite (IH i H E). reflexivity.
Qed.
Lemma bottom_top c p p' below : bottom ((c, p) :: below) = bottom ((c, p') :: below).
Proof. destruct below; reflexivity. Qed.
Lemma move_prog s i s' : move s i s' -> map prog (s_threads s') = map prog (s_threads s).
Proof.
  intros M. destruct M as [? ? ? T|? ? ? ? ? ? T L|? ? ? ? ? T Q1 Q2|? ? ? ? ? T Q|? ? ? ? T N|? ? ? ? ? T N|? ? ? ? ? T|? ? ? ? T|? ? ? ? ? ? ? ? ? T U|? ? ? T|? ? ? ? T]; cbn [s_threads].
  9: { etransitivity.
       - eapply map_upd; [rewrite upd_other; [exact T|]; intros ->; unfold th in T, U; rewrite T in U; discriminate U|].
         unfold prog. cbn [t_seen t_stack t_todo]. rewrite (bottom_top c (PWake ws) (PWake (w :: ws))). reflexivity.
       - eapply map_upd; [exact U|]. unfold prog. cbn [t_seen t_stack t_todo]. rewrite (bottom_top c (PPark true) (PPark false)). reflexivity. }
  all: eapply map_upd; [exact T|]; unfold prog; cbn [t_seen t_stack t_todo]; first
    [ reflexivity
    | do 2 f_equal; apply bottom_top
    | rewrite map_app, <- app_assoc; reflexivity ].
Qed.
Lemma exec_prog schedule : forall s s', inv s -> exec s schedule = Next s' -> map prog (s_threads s') = map prog (s_threads s).
Proof.
  induction schedule as [|i schedule IH]; intros s s' I; cbn [exec]; [intros E; injection E as <-; reflexivity|].
  destruct (step_cases s i I) as [[E _]|(s1 & E & M)]; rewrite E; intros H; [exact (IH _ _ I H)|].
  rewrite (IH _ _ (move_inv _ _ _ I M) H). exact (move_prog _ _ _ M).
Qed.
Lemma prog_start programs : map prog (s_threads (start programs)) = programs.
Proof. cbn [start s_threads]. rewrite map_map. rewrite <- (map_id programs) at 2. apply map_ext. intros p. reflexivity. Qed.

(** ** No deadlock *)
Lemma stuck_runner s c i t : inv s -> (forall j u, th s j u -> finished u \/ exists d, top u d (PPark false)) -> th s i t -> top t c (PPark false) ->
  exists d j u, needs c = Some d /\ th s j u /\ top u d (PPark false).
Proof.
  intros I B T P. destruct (i_parked _ I _ _ _ T P) as [W|(j & u & ws & U & Q & _)].
  - assert (Ph : o_phase (s_cells s c) = Running).
    { destruct (o_phase (s_cells s c)) eqn:E; [|reflexivity|]; exfalso.
      - rewrite (proj1 (i_incomplete _ I _ E)) in W. destruct W.
      - rewrite (proj1 (i_complete _ I _ E)) in W. destruct W. }
    destruct (i_running _ I _ Ph) as (j & u & U & p & R & Hp). pose proof (i_shape _ I _ _ U) as Sh. destruct (B _ _ U) as [[_ E]|(d & b & E)]; rewrite E in *.
    + destruct Hp.
    + inversion Sh as [|? ? ?|a ? ? N ?]; subst.
      * destruct Hp as [Hp|[]]. injection Hp as <- <-. destruct R.
      * destruct Hp as [Hp|[Hp|[]]]; injection Hp as <- <-; [destruct R|]. exists d, j, u. split; [exact N|]. split; [exact U|]. exists [(a, PNeed)]. exact E.
  - destruct (B _ _ U) as [[_ E]|(d & b & E)]; destruct Q as [b' E']; rewrite E' in E; discriminate E.
Qed.
Lemma stuck_finished s : inv s -> (forall i, step s i = Blocked) -> forall j u, th s j u -> finished u.
Proof.
  intros I B. assert (X : forall j u, th s j u -> finished u \/ exists d, top u d (PPark false)).
  { intros j u U. destruct (step_cases s j I) as [[_ H]|(s' & E & _)]; [exact (H u U)|]. rewrite B in E. discriminate E. }
  intros j u U. destruct (X j u U) as [F|(c & P)]; [exact F|]. exfalso.
  destruct (stuck_runner s c j u I X U P) as (d & j' & u' & N & U' & P'). destruct (stuck_runner s d j' u' I X U' P') as (e & _ & _ & N' & _).
  rewrite (needs_none _ _ N) in N'. discriminate N'.
Qed.

(** ** Every execution ends *)
Definition total {A} (f : A -> nat) (l : list A) : nat := fold_right (fun x n => (f x + n)%nat) 0%nat l.
Lemma total_upd {A} (f : A -> nat) l i x y : nth_error l i = Some y -> (total f (upd l i x) + f y = total f l + f x)%nat.
Proof.
  revert i. induction l as [|z l IH]; intros i H; [destruct i; discriminate H|]. destruct i as [|i]; cbn [upd total fold_right nth_error] in *.
  - injection H as ->. lia.
  - specialize (IH i H). unfold total in IH. lia.
Qed.
Lemma total_ext {A} (f g : A -> nat) l : (forall x, In x l -> f x = g x) -> total f l = total g l.
Proof. intros H. induction l as [|x l IH]; [reflexivity|]. cbn [total fold_right]. rewrite (H x (or_introl eq_refl)). f_equal. apply IH. intros y Y. apply H. right. exact Y. Qed.
Lemma total_less {A} (f g : A -> nat) l x : In x l -> (f x < g x)%nat -> (forall y, f y <= g y)%nat -> (total f l < total g l)%nat.
Proof.
  intros H L M. assert (W : forall l', (total f l' <= total g l')%nat) by (induction l' as [|y l' IH]; cbn [total fold_right]; [lia|specialize (M y); unfold total in IH; lia]).
  induction l as [|y l IH]; [destruct H|]. cbn [total fold_right]. destruct H as [->|H].
  - specialize (W l). unfold total in W. lia.
  - specialize (IH H). specialize (M y). unfold total in IH. lia.
Qed.
Definition statics : list static := map SList all_languages ++ map SMap all_languages.
Lemma all_statics c : In c statics.
Proof.
  assert (A : forall l, In l all_languages) by (intros [[]| | | | | |]; cbn [all_languages In]; auto 12).
  unfold statics. apply in_or_app. destruct c as [l|l]; [left|right]; apply in_map, A.
Qed.
Local Open Scope nat_scope.
Definition phase_weight (p : phase) : nat := match p with Incomplete => 2 | Running => 1 | Complete => 0 end.
Definition rank (c : static) : nat := match c with SList _ => 1 | SMap _ => 2 end.
Definition waits (cells : static -> once) (fr : static * pc) : nat :=
  match snd fr with
  | PGet | PLoad | PLoop _ | PWait _ => match o_phase (cells (fst fr)) with Complete => 0 | _ => rank (fst fr) end
  | PTake => rank (fst fr) - 1
  | _ => 0
  end.
Definition wait_weight (k : once) (q : snapshot) : nat :=
  if snapshot_eqb (queue k) q then 1 else if phase_eqb (o_phase k) (fst q) then 2 else 4.
Definition pc_weight (k : once) (p : pc) : nat :=
  match p with
  | PGet => 4
  | PLoad => 3
  | PLoop q => match fst q with Complete => 2 | Incomplete => if snapshot_eqb (queue k) q then 1 else 3 | Running => 1 + wait_weight k q end
  | PWait q => wait_weight k q
  | PPark _ => 4
  | PTake => 10
  | PNeed => 5
  | PBuild _ => 3
  | PDone => 2
  | PWake ws => 2 + length ws
  | PRead => 1
  end.
Definition m1 (s : state) : nat := total (fun c => phase_weight (o_phase (s_cells s c))) statics.
Definition w2 (cells : static -> once) (t : thread) : nat := total rank (t_todo t) + total (waits cells) (t_stack t).
Definition m2 (s : state) : nat := total (w2 (s_cells s)) (s_threads s).
Definition w3 (cells : static -> once) (t : thread) : nat :=
  total (fun _ => 5%nat) (t_todo t) + total (fun fr => pc_weight (cells (fst fr)) (snd fr)) (t_stack t).
Definition m3 (s : state) : nat := total (w3 (s_cells s)) (s_threads s).
Definition lower (s' s : state) : Prop :=
  (m1 s' < m1 s \/ (m1 s' = m1 s /\ m2 s' < m2 s) \/ (m1 s' = m1 s /\ m2 s' <= m2 s /\ m3 s' < m3 s))%nat.
Lemma queue_self k : snapshot_eqb (queue k) (queue k) = true.
Proof. apply snapshot_eqb_spec. reflexivity. Qed.
Lemma phase_self k : phase_eqb k k = true.
Proof. apply phase_eqb_spec. reflexivity. Qed.
(* a step of one thread that changes neither a phase nor a queue *)
Lemma lower_local s i t t' cells' built : th s i t -> (forall d, queue (cells' d) = queue (s_cells s d)) ->
  (w2 (s_cells s) t' <= w2 (s_cells s) t)%nat -> (w3 (s_cells s) t' < w3 (s_cells s) t)%nat ->
  lower (State cells' (upd (s_threads s) i t') built) s.
Proof.
  intros T Q W2 W3. right. right. unfold m1, m2, m3. cbn [s_cells s_threads].
  assert (P : forall d, o_phase (cells' d) = o_phase (s_cells s d)) by (intros d; exact (f_equal fst (Q d))).
  rewrite (total_ext (w2 cells') (w2 (s_cells s))), (total_ext (w3 cells') (w3 (s_cells s))).
  - split; [apply total_ext; intros d _; rewrite P; reflexivity|].
    pose proof (total_upd (w2 (s_cells s)) _ _ t' _ T). pose proof (total_upd (w3 (s_cells s)) _ _ t' _ T). lia.
  - intros u _. unfold w3. f_equal. apply total_ext. intros [d p] _. cbn [fst snd]. destruct p as [| |q|q| | | | | | |]; try reflexivity; cbn [pc_weight]; unfold wait_weight; rewrite Q, ?P; reflexivity.
  - intros u _. unfold w2. f_equal. apply total_ext. intros [d p] _. unfold waits. cbn [fst snd]. rewrite P. reflexivity.
Qed.
Lemma lower_phase s c k' threads built : (phase_weight (o_phase k') < phase_weight (o_phase (s_cells s c)))%nat ->
  lower (State (set_cell (s_cells s) c k') threads built) s.
Proof.
  intros L. left. unfold m1. cbn [s_cells]. apply (total_less _ _ _ c (all_statics c)).
  - rewrite set_same. exact L.
  - intros d. destruct (static_eq_dec d c) as [->|D]; [rewrite set_same; lia|]. rewrite set_other by exact D. lia.
Qed.
Lemma set_queue f c k' : queue k' = queue (f c) -> forall d, queue (set_cell f c k' d) = queue (f d).
Proof. intros E d. unfold set_cell. destruct (static_eq_dec d c) as [->|_]; [exact E|reflexivity]. Qed.
Lemma needs_rank c d : needs c = Some d -> (rank d <= rank c - 1)%nat.
Proof. destruct c; cbn; intros H; [discriminate H|]. injection H as <-. cbn. lia. Qed.
Lemma move_lower s i s' : inv s -> move s i s' -> lower s' s.
Proof.
  intros I M. destruct M as [? ? ? T|? ? p p' ? ? T L|? ? ? ? ? T Q1 Q2|? ? ? ? ? T Q|? ? ? ? T N|? ? ? ? ? T N|? ? ? ? ? T|? ? ? ? T|? ? ? ? ? ? ? ? ? T U|? ? ? T|? ? ? ? T].
  - apply (lower_local s i _ _ _ _ T); [reflexivity| |]; unfold w2, w3; cbn [t_todo t_stack total fold_right waits pc_weight fst snd]; [|lia]. destruct (o_phase (s_cells s c)); lia.
  - pose proof (i_frame _ I _ _ c p T (or_introl eq_refl)) as F.
    apply (lower_local s i _ _ _ _ T); [reflexivity| |]; unfold w2, w3; cbn [t_todo t_stack total fold_right fst snd].
    + apply Nat.add_le_mono_l, Nat.add_le_mono_r. inversion L; subst; cbn [waits fst snd]; cbn [frame_ok] in F; try (destruct (o_phase (s_cells s c)); lia).
      rewrite F. lia.
    + apply Nat.add_lt_mono_l, Nat.add_lt_mono_r. inversion L; subst; cbn [pc_weight queue fst snd length]; cbn [frame_ok] in F; try lia.
      * change (o_phase (s_cells s c), hd_error (o_waiting (s_cells s c))) with (queue (s_cells s c)). unfold wait_weight. rewrite queue_self. destruct (o_phase (s_cells s c)); lia.
      * rewrite H. lia.
      * rewrite H. change (o_phase (s_cells s c), hd_error (o_waiting (s_cells s c))) with (queue (s_cells s c)). unfold wait_weight. rewrite queue_self.
        destruct (snapshot_eqb (queue (s_cells s c)) q) eqn:E; [apply snapshot_eqb_spec in E; contradiction|]. destruct (o_phase (s_cells s c)); lia.
      * rewrite H. lia.
      * unfold wait_weight. change (o_phase (s_cells s c), hd_error (o_waiting (s_cells s c))) with (queue (s_cells s c)). rewrite queue_self.
        destruct (snapshot_eqb (queue (s_cells s c)) q) eqn:E; [apply snapshot_eqb_spec in E; contradiction|]. destruct (phase_eqb (o_phase (s_cells s c)) (fst q)); lia.
      * unfold wait_weight. destruct (snapshot_eqb (queue (s_cells s c)) q) eqn:E.
        { apply snapshot_eqb_spec in E. destruct H. rewrite <- E. reflexivity. }
        destruct (phase_eqb (o_phase (s_cells s c)) (fst q)) eqn:E2; [apply phase_eqb_spec in E2; contradiction|]. lia.
  - apply lower_phase. cbn [o_phase]. assert (Ph : o_phase (s_cells s c) = Incomplete) by (rewrite <- Q1, <- Q2; reflexivity). rewrite Ph. cbn. lia.
  - pose proof (i_frame _ I _ _ c _ T (or_introl eq_refl)) as [Fq _].
    assert (Ph : o_phase (s_cells s c) = Running) by (rewrite <- Fq, <- Q; reflexivity).
    right. left. unfold m1, m2. cbn [s_cells s_threads].
    set (cells' := set_cell _ _ _). assert (P : forall d, o_phase (cells' d) = o_phase (s_cells s d)).
    { intros d. unfold cells', set_cell. destruct (static_eq_dec d c) as [->|_]; reflexivity. }
    split; [apply total_ext; intros d _; rewrite P; reflexivity|].
    rewrite (total_ext (w2 cells') (w2 (s_cells s))).
    + pose proof (total_upd (w2 (s_cells s)) _ _ (Thread todo ((c, PPark false) :: below) seen) _ T) as X. unfold w2 at 2 4 in X.
      cbn [t_todo t_stack total fold_right waits fst snd] in X. rewrite Ph in X. assert (0 < rank c)%nat by (destruct c; cbn; lia). lia.
    + intros u _. unfold w2. f_equal. apply total_ext. intros [d p] _. unfold waits. cbn [fst snd]. rewrite P. reflexivity.
  - apply (lower_local s i _ _ _ _ T); [apply set_queue; reflexivity| |]; unfold w2, w3; cbn [t_todo t_stack total fold_right waits pc_weight fst snd]; lia.
  - apply (lower_local s i _ _ _ _ T); [apply set_queue; reflexivity| |]; unfold w2, w3; cbn [t_todo t_stack total fold_right waits pc_weight fst snd]; [|lia].
    apply needs_rank in N. destruct (o_phase (s_cells s d)); lia.
  - apply (lower_local s i _ _ _ _ T); [apply set_queue; reflexivity| |]; unfold w2, w3; cbn [t_todo t_stack total fold_right waits pc_weight fst snd]; lia.
  - pose proof (i_frame _ I _ _ c _ T (or_introl eq_refl)) as [Ph _]. apply lower_phase. rewrite Ph. cbn. lia.
  - right. right. unfold m1, m2, m3. cbn [s_cells s_threads]. split; [reflexivity|].
    assert (D : w <> i). { intros ->. unfold th in T, U. rewrite T in U. discriminate U. }
    assert (T' : nth_error (upd (s_threads s) w (Thread todo' ((c, PPark true) :: below') seen')) i = Some (Thread todo ((c, PWake (w :: ws)) :: below) seen)).
    { rewrite upd_other; [exact T|]. intros E. apply D. symmetry. exact E. }
    pose proof (total_upd (w2 (s_cells s)) _ _ (Thread todo ((c, PWake ws) :: below) seen) _ T') as A2.
    pose proof (total_upd (w2 (s_cells s)) _ _ (Thread todo' ((c, PPark true) :: below') seen') _ U) as B2.
    pose proof (total_upd (w3 (s_cells s)) _ _ (Thread todo ((c, PWake ws) :: below) seen) _ T') as A3.
    pose proof (total_upd (w3 (s_cells s)) _ _ (Thread todo' ((c, PPark true) :: below') seen') _ U) as B3.
    unfold w2 at 2 4 in A2. unfold w2 at 2 4 in B2. unfold w3 at 2 4 in A3. unfold w3 at 2 4 in B3.
    cbn [t_todo t_stack total fold_right waits pc_weight fst snd length] in A2, B2, A3, B3. lia.
  - apply (lower_local s i _ _ _ _ T); [reflexivity| |]; unfold w2, w3; cbn [t_todo t_stack total fold_right waits pc_weight fst snd]; lia.
  - apply (lower_local s i _ _ _ _ T); [reflexivity| |]; unfold w2, w3; cbn [t_todo t_stack total fold_right waits pc_weight fst snd]; lia.
Qed.
Lemma no_endless : forall a b c s, m1 s = a -> m2 s = b -> m3 s = c -> inv s ->
  forall (who : nat -> nat) (st : nat -> state), st 0 = s -> ~ (forall k, step (st k) (who k) = Next (st (S k))).
Proof.
  intros a. induction a as [a IHa] using (well_founded_induction lt_wf). intros b. induction b as [b IHb] using (well_founded_induction lt_wf).
  intros c. induction c as [c IHc] using (well_founded_induction lt_wf). intros s A B C I who st S0 H.
  pose proof (H 0) as H0. rewrite S0 in H0. destruct (step_cases s (who 0) I) as [[E _]|(s' & E & M)]; rewrite E in H0; [discriminate H0|]. injection H0 as E'.
  pose proof (move_inv _ _ _ I M) as I'. pose proof (move_lower _ _ _ I M) as L.
  assert (H' : forall k, step (st (S k)) (who (S k)) = Next (st (S (S k)))) by (intros k; apply H).
  assert (Lb : m1 s' = a -> m2 s' < b -> False).
  { intros E1 L2. exact (IHb (m2 s') L2 (m3 s') s' E1 eq_refl eq_refl I' (fun k => who (S k)) (fun k => st (S k)) (eq_sym E') H'). }
  destruct L as [L|[[L1 L2]|(L1 & L2 & L3)]].
  - assert (L' : m1 s' < a) by lia. exact (IHa (m1 s') L' (m2 s') (m3 s') s' eq_refl eq_refl eq_refl I' (fun k => who (S k)) (fun k => st (S k)) (eq_sym E') H').
  - apply Lb; lia.
  - destruct (Nat.eq_dec (m2 s') b) as [E2|N2]; [|apply Lb; lia].
    assert (L' : m3 s' < c) by lia. assert (E1 : m1 s' = a) by lia.
    exact (IHc (m3 s') L' s' E1 E2 eq_refl I' (fun k => who (S k)) (fun k => st (S k)) (eq_sym E') H').
Qed.

(** ** Theorems *)
(* C150: several threads use the lists and maps in any order *)
Lemma c150_threads_see_the_published_tables : forall programs schedule,
  exists s, exec (start programs) schedule = Next s
    /\ (forall t c v, In t (s_threads s) -> In (c, v) (t_seen t) -> table_ok c v)
    /\ Forall2 (fun p t => exists later, p = map fst (t_seen t) ++ later) programs (s_threads s)
    /\ NoDup (s_built s).
Proof.
  intros programs schedule. destruct (exec_inv schedule _ (inv_start programs)) as (s & E & I). exists s. split; [exact E|]. split; [|split].
  - intros t c v T H. apply In_nth_error in T. destruct T as (i & T). rewrite (i_seen _ I i t c v T H). apply the_table_ok.
  - pose proof (exec_prog _ _ _ (inv_start programs) E) as P. rewrite prog_start in P. rewrite <- P. clear. induction (s_threads s) as [|t l IH]; constructor; [|exact IH].
    exists (bottom (t_stack t) ++ t_todo t). reflexivity.
  - apply (i_built _ I).
Qed.
Lemma exec_next s i s' schedule : step s i = Next s' -> exec s (i :: schedule) = exec s' schedule.
Proof. intros E. cbn [exec]. rewrite E. reflexivity. Qed.
Lemma exec_blocked s i schedule : step s i = Blocked -> exec s (i :: schedule) = exec s schedule.
Proof. intros E. cbn [exec]. rewrite E. reflexivity. Qed.
Lemma step_build s i todo c arg below seen : th s i (Thread todo ((c, PBuild arg) :: below) seen) -> arg_ok c arg ->
  step s i = Next (State (set_cell (s_cells s) c (Once (o_phase (s_cells s c)) (o_waiting (s_cells s c)) (Some (the_table c)) (o_init (s_cells s c))))
    (upd (s_threads s) i (Thread todo ((c, PDone) :: below) seen)) (c :: s_built s)).
Proof. intros T A. unfold step, th in *. rewrite T, (build_ok c arg A). reflexivity. Qed.
Opaque the_table.
Definition once_ex : list (list static) := [[SMap (Compiled English)]; [SMap (Compiled English)]].
Example c150_example : (* the second thread waits while the first builds the list and the map *)
  exists s a b, exec (start once_ex) ([0; 0; 0; 0; 0; 1; 1; 1; 1; 1; 1; 0; 0; 0; 0; 0; 0; 0; 0; 0; 0; 0; 0; 0; 1; 1; 1; 1])%nat = Next s
    /\ map t_seen (s_threads s) = [[(SMap (Compiled English), a)]; [(SMap (Compiled English), b)]] /\ a = b
    /\ s_built s = [SMap (Compiled English); SList (Compiled English)].
Proof.
  eexists _, (the_table (SMap (Compiled English))), (the_table (SMap (Compiled English))). split.
  - do 10 (erewrite exec_next; [|cbn; reflexivity]). rewrite exec_blocked by (cbn; reflexivity). do 4 (erewrite exec_next; [|cbn; reflexivity]).
    erewrite exec_next; [|eapply step_build; reflexivity]. do 3 (erewrite exec_next; [|cbn; reflexivity]).
    erewrite exec_next; [|eapply step_build; reflexivity]. do 8 (erewrite exec_next; [|cbn; reflexivity]). reflexivity.
  - cbn. repeat split.
Qed.

(* C151: threads never wait for each other forever *)
Lemma c151_no_deadlock : forall programs schedule s,
  exec (start programs) schedule = Next s -> (forall i, step s i = Blocked) ->
  Forall2 (fun p t => map fst (t_seen t) = p /\ finished t) programs (s_threads s).
Proof.
  intros programs schedule s E B. destruct (exec_inv schedule _ (inv_start programs)) as (s' & E' & I). rewrite E in E'. injection E' as <-.
  pose proof (exec_prog _ _ _ (inv_start programs) E) as P. rewrite prog_start in P. rewrite <- P. pose proof (stuck_finished s I B) as F.
  assert (F' : forall t, In t (s_threads s) -> finished t) by (intros t T; apply In_nth_error in T; destruct T as (i & T); exact (F i t T)).
  revert F'. clear. induction (s_threads s) as [|t l IH]; intros F; constructor.
  - specialize (F t (or_introl eq_refl)). split; [|exact F]. destruct F as [A B]. unfold prog. rewrite A, B, !app_nil_r. reflexivity.
  - apply IH. intros u U. apply F. right. exact U.
Qed.
Lemma c151_no_endless_execution : forall programs (who : nat -> nat) (st : nat -> state),
  st 0%nat = start programs -> ~ (forall k, step (st k) (who k) = Next (st (S k))).
Proof. intros programs who st E. exact (no_endless _ _ _ _ eq_refl eq_refl eq_refl (inv_start programs) who st E). Qed.
Lemma progress s : inv s -> (forall i, step s i = Blocked) \/ exists i s', step s i = Next s' /\ move s i s'.
Proof.
  intros I. assert (X : forall n, (forall i, i < n -> step s i = Blocked) \/ exists i s', step s i = Next s' /\ move s i s').
  { induction n as [|n IH]; [left; intros i H; lia|]. destruct IH as [IH|IH]; [|right; exact IH]. destruct (step_cases s n I) as [[E _]|(s' & E & M)].
    - left. intros i H. destruct (Nat.eq_dec i n) as [->|D]; [exact E|]. apply IH. lia.
    - right. exists n, s'. split; assumption. }
  destruct (X (length (s_threads s))) as [H|H]; [left|right; exact H]. intros i. destruct (Nat.lt_ge_cases i (length (s_threads s))) as [L|L]; [apply H, L|].
  unfold step. apply nth_error_None in L. rewrite L. reflexivity.
Qed.
Lemma can_finish : forall a b c s, m1 s = a -> m2 s = b -> m3 s = c -> inv s ->
  exists schedule s', exec s schedule = Next s' /\ forall i, step s' i = Blocked.
Proof.
  intros a. induction a as [a IHa] using (well_founded_induction lt_wf). intros b. induction b as [b IHb] using (well_founded_induction lt_wf).
  intros c. induction c as [c IHc] using (well_founded_induction lt_wf). intros s A B C I.
  destruct (progress s I) as [H|(i & s' & E & M)]; [exists [], s; split; [reflexivity|exact H]|].
  pose proof (move_inv _ _ _ I M) as I'. pose proof (move_lower _ _ _ I M) as L.
  assert (X : exists schedule s2, exec s' schedule = Next s2 /\ forall j, step s2 j = Blocked).
  { assert (Lb : m1 s' = a -> m2 s' < b -> exists schedule s2, exec s' schedule = Next s2 /\ forall j, step s2 j = Blocked).
    { intros E1 L2. exact (IHb (m2 s') L2 (m3 s') s' E1 eq_refl eq_refl I'). }
    destruct L as [L|[[L1 L2]|(L1 & L2 & L3)]].
    - assert (L' : m1 s' < a) by lia. exact (IHa (m1 s') L' (m2 s') (m3 s') s' eq_refl eq_refl eq_refl I').
    - apply Lb; lia.
    - destruct (Nat.eq_dec (m2 s') b) as [E2|N2]; [|apply Lb; lia]. assert (L' : m3 s' < c) by lia. assert (E1 : m1 s' = a) by lia.
      exact (IHc (m3 s') L' s' E1 E2 eq_refl I'). }
  destruct X as (schedule & s2 & E2 & H). exists (i :: schedule), s2. split; [|exact H]. cbn [exec]. rewrite E. exact E2.
Qed.
Lemma exec_app a b s s' : exec s a = Next s' -> exec s (a ++ b) = exec s' b.
Proof.
  revert s. induction a as [|i a IH]; intros s; cbn [exec app]; [intros E; injection E as ->; reflexivity|]. destruct (step s i) as [| |s1]; [apply IH|discriminate|apply IH].
Qed.
Lemma c151_all_threads_can_finish : forall programs schedule, exists later s,
  exec (start programs) (schedule ++ later) = Next s
  /\ Forall2 (fun p t => map fst (t_seen t) = p /\ finished t) programs (s_threads s).
Proof.
  intros programs schedule. destruct (exec_inv schedule _ (inv_start programs)) as (s & E & I).
  destruct (can_finish _ _ _ s eq_refl eq_refl eq_refl I) as (later & s' & E' & B). pose proof (exec_app schedule later _ _ E) as X. rewrite E' in X.
  exists later, s'. split; [exact X|]. exact (c151_no_deadlock programs _ s' X B).
Qed.
Example c151_example : (* the second thread waits for the first, which can go on *)
  match exec (start once_ex) ([0; 0; 0; 0; 0; 1; 1; 1; 1; 1; 1])%nat with
  | Next s => step s 1 = Blocked
      /\ map t_stack (s_threads s)
         = [[(SList (Compiled English), PGet); (SMap (Compiled English), PNeed)]; [(SMap (Compiled English), PPark false)]]
      /\ o_waiting (s_cells s (SMap (Compiled English))) = [1%nat]
      /\ match step s 0 with Next _ => True | _ => False end
  | _ => False
  end.
Proof. do 10 (erewrite exec_next; [|cbn; reflexivity]). rewrite exec_blocked by (cbn; reflexivity). cbn. repeat split. Qed.
