(** Threads that use the word lists C150 - C151.

    Statements only: every theorem is closed by the lemma of the same name (in lower case) in
    OnceThms.v.  Generated by tools/gen_prop.py. *)
From Verif Require Import Outcome Bytes Str ModelBip39 ModelLangs SpecLangs ModelOnce SpecOnce.
From Verif Require OnceThms.
Import OnceThms(once_ex).
Open Scope N_scope.

(** ** C150. Threads that use the word lists at the same time see complete, published tables.  However many
    threads use the lazily built word lists and word maps, in whatever order their atomic steps are
    interleaved: no step panics, reads a table that is not there or signals a thread that is gone; every
    access returns the published list, or the map that gives each of its words its number and nothing else;
    the accesses of a thread happen in its order; and no table is built twice. *)
Theorem C150_threads_see_the_published_tables : forall programs schedule,
  exists s, exec (start programs) schedule = Next s
    /\ (forall t c v, In t (s_threads s) -> In (c, v) (t_seen t) -> table_ok c v)
    /\ Forall2 (fun p t => exists later, p = map fst (t_seen t) ++ later) programs (s_threads s)
    /\ NoDup (s_built s).
Proof. exact OnceThms.c150_threads_see_the_published_tables. Qed.
Print Assumptions C150_threads_see_the_published_tables.
Example C150_example : (* the second thread waits while the first builds the list and the map *)
  exists s a b, exec (start once_ex) ([0; 0; 0; 0; 0; 1; 1; 1; 1; 1; 1; 0; 0; 0; 0; 0; 0; 0; 0; 0; 0; 0; 0; 0; 1; 1; 1; 1])%nat = Next s
    /\ map t_seen (s_threads s) = [[(SMap (Compiled English), a)]; [(SMap (Compiled English), b)]] /\ a = b
    /\ s_built s = [SMap (Compiled English); SList (Compiled English)].
Proof. exact OnceThms.c150_example. Qed.

(** ** C151. Threads that use the word lists never wait for each other forever.  In every interleaving, a
    state in which no thread can take a step is one in which every thread has made all its accesses (although
    building a map waits for the list, possibly while another thread builds it); and no interleaving goes on
    forever, so every thread gets there. *)
Theorem C151_no_deadlock : forall programs schedule s,
  exec (start programs) schedule = Next s -> (forall i, step s i = Blocked) ->
  Forall2 (fun p t => map fst (t_seen t) = p /\ finished t) programs (s_threads s).
Proof. exact OnceThms.c151_no_deadlock. Qed.
Print Assumptions C151_no_deadlock.
Theorem C151_no_endless_execution : forall programs (who : nat -> nat) (st : nat -> state),
  st 0%nat = start programs -> ~ (forall k, step (st k) (who k) = Next (st (S k))).
Proof. exact OnceThms.c151_no_endless_execution. Qed.
Print Assumptions C151_no_endless_execution.
Theorem C151_all_threads_can_finish : forall programs schedule, exists later s,
  exec (start programs) (schedule ++ later) = Next s
  /\ Forall2 (fun p t => map fst (t_seen t) = p /\ finished t) programs (s_threads s).
Proof. exact OnceThms.c151_all_threads_can_finish. Qed.
Print Assumptions C151_all_threads_can_finish.
Example C151_example : (* the second thread waits for the first, which can go on *)
  match exec (start once_ex) ([0; 0; 0; 0; 0; 1; 1; 1; 1; 1; 1])%nat with
  | Next s => step s 1 = Blocked
      /\ map t_stack (s_threads s)
         = [[(SList (Compiled English), PGet); (SMap (Compiled English), PNeed)]; [(SMap (Compiled English), PPark false)]]
      /\ o_waiting (s_cells s (SMap (Compiled English))) = [1%nat]
      /\ match step s 0 with Next _ => True | _ => False end
  | _ => False
  end.
Proof. exact OnceThms.c151_example. Qed.
