(** src/lib.rs:14-19, ecdsa_sign, in builds with debug assertions.

    libsecp256k1 0.7.1 (as remembered; its source was not at hand) asserts in [sign_raw] that r, the abscissa of the nonce
    point, is not zero modulo n and is below n: [debug_assert!(!sigr.is_zero()); debug_assert!(!overflow)].
    Secp.v follows the release build, where these lines are left out. *)
From Verif Require Import Outcome Bytes Str Secp ModelBip32.
Open Scope Z_scope.

(** ECMultGenContext::sign_raw with its assertions; [Err tt] is the error for s = 0 *)
Definition sign_raw_debug (sk m k : Z) : res unit (Z * Z * N) :=
  let rx := match ecmult_gen k with Infinity => 0 | Point x _ => x end in
  if rx mod secp_n =? 0 then Panic
  else if secp_n <=? rx then Panic
  else ok_or (sign_raw sk m k) tt.

(** The retry loop of [sign]; [None] means that [fuel] candidates were not enough *)
Fixpoint sign_loop_debug (fuel : nat) (sk m : Z) (kv : bytes * bytes) : option (res sign_error (Z * Z * N)) :=
  match fuel with
  | O => None
  | S f =>
      let '(gen, kv') := drbg_generate kv in
      let k := Z.of_N (be_val gen) in
      if (k <? secp_n) && negb (k =? 0) then
        match sign_raw_debug sk m k with
        | Ok sig => Some (Ok sig)
        | Err _ => sign_loop_debug f sk m kv'
        | Panic => Some Panic
        end
      else sign_loop_debug f sk m kv'
  end.
(** src/lib.rs:14-19, ecdsa_sign *)
Definition ecdsa_sign_debug (fuel : nat) (secret : Z) (msg : bytes) : option (res sign_error (bytes * N)) :=
  match message_parse_slice msg with
  | None => Some (Err InvalidInputLength)
  | Some m =>
      match sign_loop_debug fuel secret m (drbg_new (be_bytes 32 (Z.to_N secret)) (be_bytes 32 (Z.to_N m))) with
      | None => None
      | Some r => Some (let* (r, s, recid) := r in Ok (signature_serialize r s, recid))
      end
  end.
