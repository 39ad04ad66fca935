(** Results of Rust functions.

    A Rust function returning [Result<A, E>] is modelled by a function into [res E A]; a function that
    returns [A] but may panic is modelled by a function into [res Empty_set A] or shares the error type of
    its caller.  [Panic] stands for every Rust panic: failed indexing, arithmetic overflow (overflow checks
    on), out-of-range shift amounts, [unwrap]/[expect] on a bad value, failing [assert!]/[debug_assert!]. *)
From Coq Require Export List NArith ZArith Arith Lia Bool.
Export ListNotations.

Inductive res (E A : Type) : Type :=
| Ok (a : A)
| Err (e : E)
| Panic.
Arguments Ok {E A} a.
Arguments Err {E A} e.
Arguments Panic {E A}.

(** The [?] operator, [Result::and_then]. *)
Definition bind {E A B : Type} (m : res E A) (f : A -> res E B) : res E B :=
  match m with
  | Ok a => f a
  | Err e => Err e
  | Panic => Panic
  end.

Notation "'let*' x ':=' m 'in' k" := (bind m (fun x => k))
  (at level 61, x pattern, m at next level, k at next level, right associativity).

(** [Result::map_err]. *)
Definition map_err {E F A : Type} (f : E -> F) (m : res E A) : res F A :=
  match m with
  | Ok a => Ok a
  | Err e => Err (f e)
  | Panic => Panic
  end.

Definition is_ok {E A} (m : res E A) : bool :=
  match m with Ok _ => true | _ => false end.

(** [iter.map(f).collect::<Result<Vec<_>,_>>()]: left to right, the first error is returned. *)
Fixpoint traverse {E A B} (f : A -> res E B) (l : list A) : res E (list B) :=
  match l with
  | [] => Ok []
  | x :: l' => let* y := f x in let* ys := traverse f l' in Ok (y :: ys)
  end.

(** [Result::ok_or] / indexing helper: [None] becomes a panic. *)
Definition or_panic {E A} (o : option A) : res E A :=
  match o with Some a => Ok a | None => Panic end.

Definition ok_or {E A} (o : option A) (e : E) : res E A :=
  match o with Some a => Ok a | None => Err e end.

Lemma bind_ok {E A B} (m : res E A) (f : A -> res E B) b :
  bind m f = Ok b <-> exists a, m = Ok a /\ f a = Ok b.
Proof.
  destruct m; cbn; split; intros H; try discriminate; eauto.
  - destruct H as (a' & Ha & Hf). injection Ha as ->. exact Hf.
  - destruct H as (a' & Ha & _). discriminate.
  - destruct H as (a' & Ha & _). discriminate.
Qed.

Lemma bind_panic {E A B} (m : res E A) (f : A -> res E B) :
  bind m f = Panic <-> m = Panic \/ exists a, m = Ok a /\ f a = Panic.
Proof.
  destruct m as [a|e|]; cbn; split; intros H; try discriminate; eauto.
  - destruct H as [H|(a' & Ha & Hf)]; [discriminate|]. injection Ha as ->. exact Hf.
  - destruct H as [H|(a' & Ha & Hf)]; discriminate.
Qed.

Lemma bind_err {E A B} (m : res E A) (f : A -> res E B) e :
  bind m f = Err e <-> m = Err e \/ exists a, m = Ok a /\ f a = Err e.
Proof.
  destruct m as [a|e'|]; cbn; split; intros H; try discriminate; eauto.
  - destruct H as [H|(a' & Ha & Hf)]; [discriminate|]. injection Ha as ->. exact Hf.
  - injection H as ->. auto.
  - destruct H as [H|(a' & Ha & Hf)]; [congruence|discriminate].
  - destruct H as [H|(a' & Ha & Hf)]; discriminate.
Qed.

Lemma bind_assoc {E A B C} (m : res E A) (f : A -> res E B) (g : B -> res E C) :
  bind (bind m f) g = bind m (fun a => bind (f a) g).
Proof. destruct m; reflexivity. Qed.

Lemma bind_ret {E A} (m : res E A) : bind m (fun a => Ok a) = m.
Proof. destruct m; reflexivity. Qed.
