(** How much work the functions that take texts and paths of any length do: the functions of ModelMemory.v and
    ModelBip32.v once more, with a counter.  That the counters change no result is proved (C157, C158). *)
From Coq Require Import String.
From Verif Require Import Outcome Bytes Str Hash Base58 Secp ModelBip32.
Open Scope N_scope.

(** Steps of loops, and blocks of 64 bytes that SHA-256 works on. *)
Record work := mkWork { loop_steps : N; hash_blocks : N }.
Definition no_work : work := mkWork 0 0.
Definition plus_work (a b : work) : work := mkWork (loop_steps a + loop_steps b) (hash_blocks a + hash_blocks b).
Definition steps (n : N) : work := mkWork n 0.
(** FIPS 180-4: the message, the byte 128, zeros and 8 bytes for the length *)
Definition sha256_blocks (message : bytes) : N := (len message + 9 + 63) / 64.

Definition counted (E A : Type) : Type := res E A * work.
(** [?]: the rest is not run after an error *)
Definition and_then {E A B} (m : counted E A) (f : A -> counted E B) : counted E B :=
  match m with
  | (Ok a, w) => let '(r, w') := f a in (r, plus_work w w')
  | (Err e, w) => (Err e, w)
  | (Panic, w) => (Panic, w)
  end.
Definition take {E A} (w : work) (r : res E A) : counted E A := (r, w).

(** [while val > 0] of decode_into of bs58, see [push_carry_mem] of ModelMemory.v: one step per byte that is
    written, and one for the byte that does not fit *)
Fixpoint push_carry_cost (fuel : nat) (cap : N) (out : list N) (carry : N) : counted b58_error (list N) :=
  if carry =? 0 then (Ok out, no_work)
  else match fuel with
       | O => (Panic, no_work)
       | S f => if len out =? cap then (Err BufferTooSmall, steps 1)
                else and_then (take (steps 1) (Ok tt)) (fun _ => push_carry_cost f cap (out ++ [carry mod 256]) (carry / 256))
       end.
(** The loop of decode_into over the characters, see [decode_loop_mem]: one step per character (the look-up)
    and one per byte of the number so far *)
Fixpoint decode_loop_cost (cap : N) (input : bytes) (out : list N) : counted b58_error (list N) :=
  match input with
  | [] => (Ok out, no_work)
  | c :: input' =>
      if 127 <? c then (Err NonAsciiCharacter, steps 1)
      else match b58_digit c with
           | None => (Err InvalidCharacter, steps 1)
           | Some d =>
               let '(o, carry) := mul_add 58 256 out d in
               and_then (take (steps (1 + len out)) (Ok tt)) (fun _ =>
               and_then (push_carry_cost (N.size_nat carry) cap o carry) (fun o' => decode_loop_cost cap input' o'))
           end
  end.
(** [for _ in input.take_while(|c| c == '1')], see [push_zeros_mem] *)
Fixpoint push_zeros_cost (cap : N) (input : bytes) (out : list N) : counted b58_error (list N) :=
  match input with
  | c :: input' =>
      if c =? 49 then if len out =? cap then (Err BufferTooSmall, steps 1)
                      else and_then (take (steps 1) (Ok tt)) (fun _ => push_zeros_cost cap input' (out ++ [0]))
      else (Ok out, steps 1)
  | [] => (Ok out, no_work)
  end.
(** decode_check_into of bs58 0.4, see [decode_check_mem]: reversing the buffer takes one step per byte; the
    checksum hashes the payload and then the 32 bytes of its hash *)
Definition decode_check_cost (cap : N) (input : bytes) : counted b58_error bytes :=
  and_then (decode_loop_cost cap input []) (fun out =>
  and_then (push_zeros_cost cap input out) (fun out' =>
  and_then (take (steps (len out')) (Ok tt)) (fun _ =>
  let data := rev out' in
  if len data <? 4 then (Err NoChecksum, no_work)
  else
    let payload := firstn (length data - 4) data in
    take (mkWork 4 (sha256_blocks payload + sha256_blocks (sha256 payload)))
      (if bytes_eqb (check_bytes payload) (skipn (length data - 4) data) then Ok payload else Err InvalidB58Checksum)))).
(** src/bip32/extended_key/mod.rs:71-105, ExtendedKey::from_str: behind the decoder the work is on 78 bytes and
    four characters; it counts as 78 steps. *)
Definition ek_from_str_cost (base58 : str) : R32 extended_key * work :=
  let '(r, w) := decode_check_cost (N.of_nat BYTE_SIZE + 4) (utf8 base58) in
  match from_b58 r with
  | Ok payload =>
      (if negb (len payload =? N.of_nat BYTE_SIZE) then Err EDecode
       else
         let* pre := (let* cs := ok_or (str_get_to 4 base58) EDecode in
                      let* _ := validate_str (utf8 cs) in
                      from_parts_unchecked (utf8 cs) (be_val (slice 0 4 payload))) in
         let* d := index payload 4 in
         Ok (mkExt pre
               (mkAttrs d (slice 5 9 payload) (child_from_bytes (slice 9 13 payload)) (slice 13 45 payload))
               (slice 45 78 payload)), plus_work w (steps 78))
  | Err e => (Err e, w)
  | Panic => (Panic, w)
  end.

(** Calls of HMAC-SHA512 and multiplications on the curve. *)
Record calls := mkCalls { hmac_calls : N; curve_calls : N }.
Definition no_calls : calls := mkCalls 0 0.
Definition plus_calls (a b : calls) : calls := mkCalls (hmac_calls a + hmac_calls b) (curve_calls a + curve_calls b).

(** src/bip32/extended_key/extended_private_key.rs:97-134, derive_child: the public key is computed for the
    input of a normal child (line 107) and again for the fingerprint (line 126) *)
Definition xprv_derive_child_count (hmac : bytes -> bytes -> bytes) (x : xprv) (c : N) : R32 xprv * calls :=
  match checked_add 8 (depth (xprv_attrs x)) 1 with
  | None => (Err EDepth, no_calls)
  | Some d =>
      let w := mkCalls 1 (if child_is_hardened c then 0 else 1) in
      let data := (if child_is_hardened c then [0] ++ private_to_bytes (private_key x)
                   else public_to_bytes (private_public_key (private_key x))) ++ child_to_bytes c in
      let result := hmac (chain_code (xprv_attrs x)) data in
      match private_derive_child (private_key x) (firstn 32 result) with
      | Ok k => (Ok (mkXPrv k (mkAttrs d (public_fingerprint (private_public_key (private_key x))) c (skipn 32 result))),
                 plus_calls w (mkCalls 0 1))
      | Err e => (Err e, w)
      | Panic => (Panic, w)
      end
  end.
(** src/bip32/extended_key/extended_public_key.rs:62-88, derive_child: one multiplication, in the tweak *)
Definition xpub_derive_child_count (hmac : bytes -> bytes -> bytes) (x : xpub) (c : N) : R32 xpub * calls :=
  if child_is_hardened c then (Err EChildNumber, no_calls)
  else
    match checked_add 8 (depth (xpub_attrs x)) 1 with
    | None => (Err EDepth, no_calls)
    | Some d =>
        let result := hmac (chain_code (xpub_attrs x)) (public_to_bytes (public_key x) ++ child_to_bytes c) in
        match public_derive_child (public_key x) (firstn 32 result) with
        | Ok k => (Ok (mkXPub k (mkAttrs d (public_fingerprint (public_key x)) c (skipn 32 result))), mkCalls 1 1)
        | Err e => (Err e, mkCalls 1 1)
        | Panic => (Panic, mkCalls 1 1)
        end
    end.
(** [path.iter().fold(start, |maybe_key, child_num| maybe_key.and_then(|key| key.derive_child(child_num)))]:
    extended_private_key.rs:53-60 and 87-94, extended_public_key.rs:52-59 *)
Definition fold_count {A} (step : A -> N -> R32 A * calls) (p : path) (start : R32 A) : R32 A * calls :=
  fold_left (fun acc c => match acc with
                          | (Ok a, w) => let '(r, w') := step a c in (r, plus_calls w w')
                          | (Err e, w) => (Err e, w)
                          | (Panic, w) => (Panic, w)
                          end) p (start, no_calls).
Definition xprv_derive_from_path_count (hmac : bytes -> bytes -> bytes) (x : xprv) (p : path) : R32 xprv * calls :=
  fold_count (xprv_derive_child_count hmac) p (Ok x).
Definition xpub_derive_from_path_count (hmac : bytes -> bytes -> bytes) (x : xpub) (p : path) : R32 xpub * calls :=
  fold_count (xpub_derive_child_count hmac) p (Ok x).
(** The master key takes one more HMAC. *)
Definition xprv_new_from_path_count (hmac : bytes -> bytes -> bytes) (seed : bytes) (p : path) : R32 xprv * calls :=
  let '(r, w) := fold_count (xprv_derive_child_count hmac) p (xprv_new_with hmac seed) in
  (r, plus_calls (if existsb (N.eqb (len seed)) [16; 32; 64; 128] then mkCalls 1 0 else no_calls) w).
