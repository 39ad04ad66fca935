(** BitWriter and BitIter of src/bip39/util.rs at every item size.  ModelBip39.v has them at the sizes that the
    crate uses ([push_at_11] and [next_at_8_11] below); the code is generic in [Bits::SIZE]. *)
From Verif Require Import Outcome Bytes ModelBip39.
Open Scope N_scope.

(** src/bip39/util.rs:124-135, BitWriter::push at an item type with [SIZE] = size; the value is that of
    [Bits::bits], a u32 *)
Definition push (size : N) (w : bit_writer) (value : N) : R bit_writer :=
  let* shift := sub_chk 32 size in
  let* a := shl_chk 32 value shift in
  let* b := shr_chk 32 a (bw_offset w) in
  let* off := add_chk 64 (bw_offset w) size in
  bw_drain (N.to_nat off) (BitWriter off (N.lor (bw_remainder w) b) (bw_inner w)).
(** One call of [push] after the other; the item types may differ. *)
Fixpoint push_all (w : bit_writer) (items : list (N * N)) : R bit_writer :=
  match items with
  | [] => Ok w
  | (size, value) :: items' => let* w' := push size w value in push_all w' items'
  end.

(** src/bip39/util.rs:183-197, BitIter::next, from items of [isize] bits to items of [osize] bits *)
Fixpoint fill (isize osize : N) (source : list N) (read buffer : N) : R (option bit_iter) :=
  if read <? osize then
    match source with
    | [] => Ok None
    | b :: source' =>
        let* read' := add_chk 64 read isize in
        let* k := sub_chk 64 read' in
        let* x := shl_chk 64 b k in
        fill isize osize source' read' (N.lor buffer x)
    end
  else Ok (Some (BitIter source read buffer)).
Definition next (isize osize : N) (it : bit_iter) : R (option (N * bit_iter)) :=
  let* o := fill isize osize (bi_source it) (bi_read it) (bi_buffer it) in
  match o with
  | None => Ok None
  | Some it' =>
      let* k := sub_chk 64 osize in
      let* r := shr_chk 64 (bi_buffer it') k in
      let* buffer := shl_chk 64 (bi_buffer it') osize in
      let* read := sub_chk (bi_read it') osize in
      Ok (Some (wrap 16 r, BitIter (bi_source it') read buffer))
  end.
(** Running the iterator to its end, as a relation, since [next] may yield several items from one. *)
Inductive runs (isize osize : N) : bit_iter -> list N -> Prop :=
| runs_end it : next isize osize it = Ok None -> runs isize osize it []
| runs_item it x it' xs : next isize osize it = Ok (Some (x, it')) -> runs isize osize it' xs -> runs isize osize it (x :: xs).

(** The sizes that the crate uses *)
Lemma push_at_11 w x : push 11 w x = bw_push w x.
Proof. reflexivity. Qed.
Lemma next_at_8_11 it : next 8 11 it = bi_next it.
Proof.
  unfold next, bi_next. generalize (bi_read it) (bi_buffer it).
  assert (F : forall source read buffer, fill 8 11 source read buffer = bi_fill source read buffer); [|intros; rewrite F; reflexivity].
  induction source as [|b source IH]; intros read buffer; cbn [fill bi_fill]; [reflexivity|]. destruct (read <? 11); [|reflexivity].
  destruct (add_chk 64 read 8) as [r| |]; cbn [bind]; try reflexivity. destruct (sub_chk 64 r) as [k| |]; cbn [bind]; try reflexivity.
  destruct (shl_chk 64 b k) as [x| |]; cbn [bind]; try reflexivity. apply IH.
Qed.
