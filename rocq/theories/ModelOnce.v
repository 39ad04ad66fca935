(** Threads that use the word lists and word maps at the same time (src/bip39/language.rs:39-104).

    Each list and each map is a [static] of type [once_cell::sync::Lazy], filled by the first thread that needs
    it.  The model follows once_cell 1.13.0 (src/lib.rs, [Lazy::force] and [OnceCell::get_or_init];
    src/imp_std.rs, [initialize], [initialize_or_wait], [wait], [Guard::drop]): one step of a thread is one
    atomic operation, and threads take their steps in any order.  The source of once_cell was not at hand: the steps
    were written from memory of it and not compared with it (DESIGN.md, section 3).

    Simplified: memory is sequentially consistent (the code uses acquire and release operations); [thread::park]
    returns only after the thread has been signalled (it may return earlier, but then it is called again).  Of
    the queue only what the code compares is compared: its state and its first entry. *)
From Verif Require Import Outcome Bytes Str ModelBip39 ModelLangs.
Open Scope N_scope.

(** The statics, src/bip39/language.rs:65-103 *)
Inductive static := SList (l : language_all) | SMap (l : language_all).
Definition static_eq_dec (a b : static) : {a = b} + {a <> b}.
Proof. decide equality; decide equality; decide equality. Defined.
Inductive table := TList (ws : list str) | TMap (m : wordmap).
(** The static that an initialiser uses: [gen_wordmap(&WORDLIST_...)], src/bip39/language.rs:88-103 *)
Definition needs (c : static) : option static := match c with SList _ => None | SMap l => Some (SList l) end.
(** What an initialiser returns, [None] if it panics.  src/bip39/language.rs:44-50 (with the assertion of debug
    builds) and 53-62 *)
Definition build (c : static) (arg : option table) : option table :=
  match c, arg with
  | SList l, None => let ws := wordlist_all l in if len ws =? 2048 then Some (TList ws) else None
  | SMap _, Some (TList ws) => Some (TMap (gen_wordmap ws))
  | _, _ => None
  end.

(** [OnceCell]: the state and the queue of waiting threads (newest first), the value, and whether the initialiser
    of the [Lazy] is still there *)
Inductive phase := Incomplete | Running | Complete.
Record once := Once { o_phase : phase; o_waiting : list nat; o_value : option table; o_init : bool }.
Definition phase_eqb (a b : phase) : bool :=
  match a, b with Incomplete, Incomplete | Running, Running | Complete, Complete => true | _, _ => false end.
(** What is read from [queue]: the state and the first waiting thread. *)
Notation snapshot := (phase * option nat)%type.
Definition queue (k : once) : snapshot := (o_phase k, hd_error (o_waiting k)).
Definition snapshot_eqb (a b : snapshot) : bool :=
  phase_eqb (fst a) (fst b)
  && match snd a, snd b with None, None => true | Some x, Some y => Nat.eqb x y | _, _ => false end.

(** Where a thread is in [Lazy::force] *)
Inductive pc :=
| PGet                          (* OnceCell::get: load the state *)
| PLoad                         (* initialize_or_wait: load the queue *)
| PLoop (q : snapshot)          (* the loop of initialize_or_wait *)
| PWait (q : snapshot)          (* wait: enqueue *)
| PPark (signalled : bool)      (* wait: park until signalled *)
| PTake                         (* the closure of Lazy::force: take the initialiser *)
| PNeed                         (* the initialiser uses another static (the frame above) *)
| PBuild (arg : option table)   (* the initialiser returns, the value is stored *)
| PDone                         (* Guard::drop: swap the queue *)
| PWake (ws : list nat)         (* Guard::drop: signal the waiting threads *)
| PRead.                        (* get_unchecked *)
Record thread := Thread { t_todo : list static; t_stack : list (static * pc); t_seen : list (static * table) }.
Record state := State { s_cells : static -> once; s_threads : list thread; s_built : list static }.
(** [Crash]: a panic, a read of a value that is not there, or a write to a waiter that is gone. *)
Inductive result := Blocked | Crash | Next (s : state).

Fixpoint upd {A} (l : list A) (i : nat) (x : A) : list A :=
  match l, i with
  | [], _ => []
  | _ :: l', O => x :: l'
  | y :: l', S i' => y :: upd l' i' x
  end.
Definition set_cell (f : static -> once) (c : static) (k : once) : static -> once :=
  fun d => if static_eq_dec d c then k else f d.

Definition step (s : state) (i : nat) : result :=
  match nth_error (s_threads s) i with
  | None => Blocked
  | Some (Thread todo [] seen) =>
      match todo with
      | [] => Blocked
      | c :: todo' => Next (State (s_cells s) (upd (s_threads s) i (Thread todo' [(c, PGet)] seen)) (s_built s))
      end
  | Some (Thread todo ((c, p) :: below) seen) =>
      let k := s_cells s c in
      let go p' := Next (State (s_cells s) (upd (s_threads s) i (Thread todo ((c, p') :: below) seen)) (s_built s)) in
      let go_with k' p' :=
        Next (State (set_cell (s_cells s) c k') (upd (s_threads s) i (Thread todo ((c, p') :: below) seen)) (s_built s)) in
      match p with
      | PGet => match o_phase k with Complete => go PRead | _ => go PLoad end
      | PLoad => go (PLoop (queue k))
      | PLoop q =>
          match fst q with
          | Complete => go PRead
          | Incomplete =>
              if snapshot_eqb (queue k) q then go_with (Once Running (o_waiting k) (o_value k) (o_init k)) PTake
              else go (PLoop (queue k))
          | Running => go (PWait q)
          end
      | PWait q =>
          if snapshot_eqb (queue k) q then go_with (Once (o_phase k) (i :: o_waiting k) (o_value k) (o_init k)) (PPark false)
          else if phase_eqb (o_phase k) (fst q) then go (PWait (queue k)) else go PLoad
      | PPark false => Blocked
      | PPark true => go PLoad
      | PTake =>
          if o_init k then
            let k' := Once (o_phase k) (o_waiting k) (o_value k) false in
            match needs c with
            | None => go_with k' (PBuild None)
            | Some d =>
                Next (State (set_cell (s_cells s) c k')
                  (upd (s_threads s) i (Thread todo ((d, PGet) :: (c, PNeed) :: below) seen)) (s_built s))
            end
          else Crash (* "Lazy instance has previously been poisoned" *)
      | PNeed => Crash
      | PBuild arg =>
          match build c arg with
          | Some v =>
              Next (State (set_cell (s_cells s) c (Once (o_phase k) (o_waiting k) (Some v) (o_init k)))
                (upd (s_threads s) i (Thread todo ((c, PDone) :: below) seen)) (c :: s_built s))
          | None => Crash
          end
      | PDone => go_with (Once Complete [] (o_value k) (o_init k)) (PWake (o_waiting k))
      | PWake [] => go PRead
      | PWake (w :: ws) =>
          match nth_error (s_threads s) w with
          | Some (Thread todo' ((c', PPark false) :: below') seen') =>
              if static_eq_dec c' c then
                Next (State (s_cells s)
                  (upd (upd (s_threads s) w (Thread todo' ((c', PPark true) :: below') seen'))
                     i (Thread todo ((c, PWake ws) :: below) seen)) (s_built s))
              else Crash
          | _ => Crash
          end
      | PRead =>
          match o_value k, below with
          | None, _ => Crash
          | Some v, [] => Next (State (s_cells s) (upd (s_threads s) i (Thread todo [] (seen ++ [(c, v)]))) (s_built s))
          | Some v, (c', PNeed) :: below' =>
              Next (State (s_cells s) (upd (s_threads s) i (Thread todo ((c', PBuild (Some v)) :: below') seen)) (s_built s))
          | Some _, _ => Crash
          end
      end
  end.
(** The start: nothing is built; each thread is a list of accesses. *)
Definition start (programs : list (list static)) : state :=
  State (fun _ => Once Incomplete [] None true) (map (fun p => Thread p [] []) programs) [].
(** A schedule names the thread that is to take the next step; a blocked thread is passed over. *)
Fixpoint exec (s : state) (schedule : list nat) : result :=
  match schedule with
  | [] => Next s
  | i :: schedule' =>
      match step s i with
      | Next s' => exec s' schedule'
      | Blocked => exec s schedule'
      | Crash => Crash
      end
  end.
