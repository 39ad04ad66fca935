(** Splitting and joining text. *)
From Coq Require Import String ZifyBool ZifyNat ZifyN.
From Verif Require Import Outcome Bytes Str ModelBip39 SpecBip39.
Open Scope N_scope.

Lemma str_eqb_spec a b : str_eqb a b = true <-> a = b.
Proof. apply bytes_eqb_spec. Qed.
Lemma str_eqb_refl a : str_eqb a a = true.
Proof. apply bytes_eqb_refl. Qed.
Lemma str_eq_dec (a b : str) : {a = b} + {a <> b}.
Proof. apply list_eq_dec, N.eq_dec. Qed.

Lemma split_pred_nonempty p s : split_pred p s <> [].
Proof. destruct s as [|c s]; cbn; [discriminate|]. destruct (p c); [discriminate|]. destruct (split_pred p s); discriminate. Qed.

Lemma split_pred_none p w : forallb (fun c => negb (p c)) w = true -> split_pred p w = [w].
Proof.
  induction w as [|c w IH]; cbn; [reflexivity|]. intros H. apply andb_true_iff in H. destruct H as [Hc Hw].
  apply negb_true_iff in Hc. rewrite Hc, (IH Hw). reflexivity.
Qed.

Lemma split_pred_app p w c s : forallb (fun c => negb (p c)) w = true -> p c = true ->
  split_pred p (w ++ c :: s) = w :: split_pred p s.
Proof.
  intros Hw Hc. induction w as [|d w IH]; cbn [app split_pred forallb] in *; [rewrite Hc; reflexivity|].
  apply andb_true_iff in Hw. destruct Hw as [Hd Hw]. apply negb_true_iff in Hd.
  rewrite Hd, (IH Hw). reflexivity.
Qed.

Lemma split_pred_pieces p s : Forall (fun w => forallb (fun c => negb (p c)) w = true) (split_pred p s).
Proof.
  induction s as [|c s IH]; cbn; [repeat constructor|].
  destruct (p c) eqn:E; [constructor; auto|].
  destruct (split_pred p s) as [|w ws]; inversion IH; subst; constructor; auto; cbn; rewrite E; auto.
Qed.

Lemma split_pred_covers p s c : In c s -> p c = false -> exists w, In w (split_pred p s) /\ In c w.
Proof.
  induction s as [|d s IH]; intros Hin Hp; [destruct Hin|]. cbn.
  destruct Hin as [->|Hin].
  - rewrite Hp. destruct (split_pred p s) as [|w ws]; eexists; split; cbn; eauto; cbn; auto.
  - destruct (IH Hin Hp) as (w & Hw & Hc). destruct (p d).
    + exists w. cbn. auto.
    + destruct (split_pred p s) as [|v vs]; [destruct Hw|]. destruct Hw as [->|Hw].
      * exists (d :: w). cbn. auto.
      * exists w. cbn. auto.
Qed.

(** ** Single spaces *)
Definition no_space (w : str) : bool := forallb (fun c => negb (32 =? c)) w.

Lemma spaced_cons w ws : ws <> [] -> spaced (w :: ws) = w ++ 32 :: spaced ws.
Proof. destruct ws; [congruence|reflexivity]. Qed.

Lemma iter_join_spaced ws : iter_join (lit " ") ws = spaced ws.
Proof.
  unfold iter_join. change (lit " ") with [32]. destruct ws as [|w ws]; [reflexivity|].
  revert w. induction ws as [|v ws IH]; intros w; [reflexivity|].
  cbn [fold_left]. rewrite IH. clear IH.
  rewrite (spaced_cons w) by discriminate.
  destruct ws as [|u ws]; [cbn; rewrite <- ?app_assoc; reflexivity|].
  rewrite (spaced_cons (w ++ [32] ++ v)), (spaced_cons v) by discriminate.
  rewrite <- !app_assoc. reflexivity.
Qed.

Lemma split_char_spaced ws : ws <> [] -> forallb no_space ws = true -> split_char 32 (spaced ws) = ws.
Proof.
  unfold split_char. induction ws as [|w ws IH]; intros Hne H; [congruence|].
  cbn in H. apply andb_true_iff in H. destruct H as [Hw Hws].
  destruct ws as [|v ws].
  - cbn [spaced]. apply split_pred_none, Hw.
  - rewrite spaced_cons by discriminate. rewrite split_pred_app; [|exact Hw|reflexivity].
    rewrite IH; [reflexivity|discriminate|exact Hws].
Qed.

Lemma spaced_split_char s : spaced (split_char 32 s) = s.
Proof.
  unfold split_char. induction s as [|c s IH]; [reflexivity|]. cbn [split_pred].
  destruct (N.eqb_spec 32 c) as [<-|E].
  - rewrite spaced_cons by apply split_pred_nonempty. rewrite IH. reflexivity.
  - destruct (split_pred (N.eqb 32) s) as [|w ws] eqn:Es; [destruct (split_pred_nonempty _ _ Es)|].
    destruct ws as [|v ws].
    + cbn in *. congruence.
    + rewrite spaced_cons in * by discriminate. cbn [app]. rewrite <- IH. reflexivity.
Qed.

Lemma split_char_no_space s : forallb no_space (split_char 32 s) = true.
Proof. apply forallb_forall. intros w Hw. pose proof (split_pred_pieces (N.eqb 32) s) as H. rewrite Forall_forall in H. apply H, Hw. Qed.

Lemma spaced_inj ws vs : forallb no_space ws = true -> forallb no_space vs = true -> ws <> [] -> vs <> [] ->
  spaced ws = spaced vs -> ws = vs.
Proof.
  intros Hw Hv Hnw Hnv H. rewrite <- (split_char_spaced ws Hnw Hw), <- (split_char_spaced vs Hnv Hv). congruence.
Qed.

Lemma in_spaced c w ws : In w ws -> In c w -> In c (spaced ws).
Proof.
  induction ws as [|v ws IH]; intros Hw Hc; [destruct Hw|].
  destruct ws as [|u ws]; [destruct Hw as [->|[]]; exact Hc|].
  rewrite spaced_cons by discriminate. apply in_app_iff. destruct Hw as [->|Hw]; [auto|].
  right. right. apply IH; assumption.
Qed.

Lemma split_char_count s : length (split_char 32 s) = S (count_occ N.eq_dec s 32).
Proof.
  unfold split_char. induction s as [|c s IH]; [reflexivity|]. cbn [split_pred count_occ].
  destruct (N.eqb_spec 32 c) as [<-|E]; destruct (N.eq_dec _ _) as [E'|E']; try congruence.
  - cbn [length]. rewrite IH. reflexivity.
  - destruct (split_pred (N.eqb 32) s); cbn [length] in *; [discriminate|exact IH].
Qed.

(** ** White space *)
Definition no_white (w : str) : bool := forallb (fun c => negb (is_whitespace c)) w.
Definition nonempty (w : str) : bool := match w with [] => false | _ => true end.

Lemma split_whitespace_pre pre s : forallb is_whitespace pre = true -> split_whitespace (pre ++ s) = split_whitespace s.
Proof.
  unfold split_whitespace. induction pre as [|c pre IH]; cbn; intros H; [reflexivity|].
  apply andb_true_iff in H. destruct H as [Hc Hp]. rewrite Hc. cbn. apply IH, Hp.
Qed.

Lemma split_whitespace_word w rest : w <> [] -> no_white w = true ->
  (rest = [] \/ exists c r, rest = c :: r /\ is_whitespace c = true) ->
  split_whitespace (w ++ rest) = w :: split_whitespace rest.
Proof.
  intros Hn Hw [->|(c & r & -> & Hc)]; unfold split_whitespace.
  - rewrite app_nil_r, split_pred_none by exact Hw. destruct w; [congruence|reflexivity].
  - rewrite split_pred_app by assumption. cbn [filter split_pred]. rewrite Hc. cbn [filter].
    destruct w; [congruence|reflexivity].
Qed.

Lemma split_whitespace_laid_out s ws : laid_out s ws -> split_whitespace s = ws.
Proof.
  revert s. induction ws as [|w ws IH]; intros s H; cbn in H.
  - rewrite <- (app_nil_r s), split_whitespace_pre by exact H. reflexivity.
  - destruct H as (pre & rest & -> & Hp & Hn & Hw & Hr & Hl).
    rewrite split_whitespace_pre by exact Hp. rewrite split_whitespace_word by assumption.
    rewrite (IH _ Hl). reflexivity.
Qed.

Lemma laid_out_pre c s ws : is_whitespace c = true -> laid_out s ws -> laid_out (c :: s) ws.
Proof.
  intros Hc H. destruct ws as [|w ws]; cbn in *; [rewrite Hc; exact H|].
  destruct H as (pre & rest & -> & Hp & H). exists (c :: pre), rest. split; [reflexivity|].
  cbn. rewrite Hc, Hp. split; [reflexivity|exact H].
Qed.

Lemma laid_out_split s : laid_out s (split_whitespace s).
Proof.
  induction s as [|c s IH]; [reflexivity|].
  destruct (is_whitespace c) eqn:Hc.
  - change (c :: s) with ([c] ++ s). rewrite split_whitespace_pre by (cbn; rewrite Hc; reflexivity).
    apply laid_out_pre; assumption.
  - destruct s as [|d s].
    + unfold split_whitespace. cbn [split_pred]. rewrite Hc. cbn.
      exists [], []. cbn. rewrite Hc. repeat split; auto; discriminate.
    + destruct (is_whitespace d) eqn:Hd.
      * change (c :: d :: s) with ([c] ++ d :: s). rewrite split_whitespace_word.
        -- cbn [laid_out]. exists [], (d :: s). cbn. rewrite Hc. repeat split; eauto; discriminate.
        -- discriminate.
        -- cbn. rewrite Hc. reflexivity.
        -- right. eauto.
      * unfold split_whitespace in *. cbn [split_pred] in *. rewrite Hc, Hd in *.
        destruct (split_pred is_whitespace s) as [|w ws] eqn:Es; cbn [filter] in *.
        -- destruct (split_pred_nonempty _ _ Es).
        -- cbn [laid_out] in *. destruct IH as (pre & rest & He & Hp & Hn & Hw & Hr & Hl).
           exists [], rest. destruct pre as [|x pre].
           ++ cbn in *. injection He as He. rewrite Hc. cbn. subst s. repeat split; auto; discriminate.
           ++ cbn in He. injection He as -> He. cbn in Hp. rewrite Hd in Hp. discriminate.
Qed.

Lemma laid_out_iff s ws : laid_out s ws <-> split_whitespace s = ws.
Proof. split; [apply split_whitespace_laid_out|]. intros <-. apply laid_out_split. Qed.

Lemma split_whitespace_words s : Forall (fun w => w <> [] /\ no_white w = true) (split_whitespace s).
Proof.
  generalize (laid_out_split s). generalize (split_whitespace s) as ws. intros ws. revert s.
  induction ws as [|w ws IH]; intros s H; [constructor|]. cbn in H.
  destruct H as (pre & rest & _ & _ & Hn & Hw & _ & Hl). constructor; [auto|]. eapply IH, Hl.
Qed.

Lemma split_whitespace_spaced ws : Forall (fun w => w <> [] /\ no_white w = true) ws -> split_whitespace (spaced ws) = ws.
Proof.
  induction 1 as [|w ws [Hn Hw] H IH]; [reflexivity|].
  destruct ws as [|v ws].
  - cbn [spaced]. rewrite <- (app_nil_r w) at 1. rewrite split_whitespace_word; auto.
  - rewrite spaced_cons by discriminate. rewrite split_whitespace_word; auto.
    + f_equal. change (32 :: spaced (v :: ws)) with ([32] ++ spaced (v :: ws)).
      rewrite split_whitespace_pre by reflexivity. exact IH.
    + right. eexists _, _. split; [reflexivity|reflexivity].
Qed.

(** ** Sequencing *)
Lemma traverse_ok_iff {E A B} (f : A -> res E B) l r :
  traverse f l = Ok r <-> Forall2 (fun a b => f a = Ok b) l r.
Proof.
  revert r. induction l as [|a l IH]; intros r; cbn.
  - split; intros H; [injection H as <-; constructor|inversion H; reflexivity].
  - split; intros H.
    + apply bind_ok in H. destruct H as (b & Hb & H). apply bind_ok in H. destruct H as (bs & Hbs & H).
      injection H as <-. constructor; [exact Hb|]. apply IH, Hbs.
    + inversion H as [|? b ? bs Hb Hbs]; subst. rewrite Hb. cbn. apply IH in Hbs. rewrite Hbs. reflexivity.
Qed.
