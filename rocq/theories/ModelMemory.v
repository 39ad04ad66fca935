(** What the local buffers of src/bip32/extended_key/mod.rs hold when the functions return.  The code wipes
    them with [zeroize] (lines 53 and 90), but only on the paths that reach these lines: [?] returns before.

    A buffer that bs58 fills is an array of zeros whose first elements have been written; the model keeps the
    written part, least significant digit first as in Base58.v, also when the function stops with an error. *)
From Coq Require Import String.
From Verif Require Import Outcome Bytes Str Hash Base58 ModelBip32.
Open Scope N_scope.

(** An outcome together with the buffer at that moment. *)
Definition with_buffer (A : Type) : Type := res b58_error A * list N.

(** [while carry > 0] of bs58, see [push_carry] of Base58.v *)
Fixpoint push_carry_mem (fuel : nat) (bo cap : N) (out : list N) (carry : N) : with_buffer (list N) :=
  if carry =? 0 then (Ok out, out)
  else match fuel with
       | O => (Panic, out)
       | S f => if len out =? cap then (Err BufferTooSmall, out)
                else push_carry_mem f bo cap (out ++ [carry mod bo]) (carry / bo)
       end.
(** The loop of decode_into of bs58: a character is looked up when the loop reaches it. *)
Fixpoint decode_loop_mem (cap : N) (input : bytes) (out : list N) : with_buffer (list N) :=
  match input with
  | [] => (Ok out, out)
  | c :: input' =>
      if 127 <? c then (Err NonAsciiCharacter, out)
      else match b58_digit c with
           | None => (Err InvalidCharacter, out)
           | Some d =>
               let '(o, carry) := mul_add 58 256 out d in
               match push_carry_mem (N.size_nat carry) 256 cap o carry with
               | (Ok o', _) => decode_loop_mem cap input' o'
               | r => r
               end
           end
  end.
(** [for _ in input.take_while(|c| c == '1')] *)
Fixpoint push_zeros_mem (cap : N) (input : bytes) (out : list N) : with_buffer (list N) :=
  match input with
  | c :: input' =>
      if c =? 49 then if len out =? cap then (Err BufferTooSmall, out) else push_zeros_mem cap input' (out ++ [0])
      else (Ok out, out)
  | [] => (Ok out, out)
  end.
(** decode_into: at the end the written part is reversed in place. *)
Definition decode_into_mem (cap : N) (input : bytes) : with_buffer bytes :=
  match decode_loop_mem cap input [] with
  | (Ok out, _) =>
      match push_zeros_mem cap input out with
      | (Ok out', _) => (Ok (rev out'), rev out')
      | (Err e, b) => (Err e, b)
      | (Panic, b) => (Panic, b)
      end
  | (Err e, b) => (Err e, b)
  | (Panic, b) => (Panic, b)
  end.
(** decode_check_into: compares the checksum where it stands, changes nothing. *)
Definition decode_check_mem (cap : N) (input : bytes) : with_buffer bytes :=
  match decode_into_mem cap input with
  | (Ok out, b) =>
      (if len out <? 4 then Err NoChecksum
       else let payload := firstn (length out - 4) out in
            if bytes_eqb (check_bytes payload) (skipn (length out - 4) out) then Ok payload
            else Err InvalidB58Checksum, b)
  | (Err e, b) => (Err e, b)
  | (Panic, b) => (Panic, b)
  end.

(** The whole array: what was written, and the zeros it was initialised with. *)
Definition array (n : nat) (written : bytes) : bytes := written ++ repeat 0 (n - length written).

(** src/bip32/extended_key/mod.rs:71-105, ExtendedKey::from_str, with the array [bytes] at its return.  The
    three returns by error at lines 73, 76 and 83 come before [bytes.zeroize()] at line 90; the conversions of
    lines 86 to 89 cannot fail. *)
Definition ek_from_str_mem (base58 : str) : R32 extended_key * bytes :=
  let '(r, written) := decode_check_mem (N.of_nat BYTE_SIZE + 4) (utf8 base58) in
  let bytes := array (BYTE_SIZE + 4) written in
  match from_b58 r with
  | Ok payload =>
      if negb (len payload =? N.of_nat BYTE_SIZE) then (Err EDecode, bytes)
      else
        match (let* cs := ok_or (str_get_to 4 base58) EDecode in
               let* _ := validate_str (utf8 cs) in
               from_parts_unchecked (utf8 cs) (be_val (slice 0 4 bytes))) with
        | Ok pre =>
            match index bytes 4 with
            | Ok d =>
                (Ok (mkExt pre
                      (mkAttrs d (slice 5 9 bytes) (child_from_bytes (slice 9 13 bytes)) (slice 13 45 bytes))
                      (slice 45 78 bytes)),
                 repeat 0 (length bytes))
            | Err e => (Err e, bytes)
            | Panic => (Panic, bytes)
            end
        | Err e => (Err e, bytes)
        | Panic => (Panic, bytes)
        end
  | Err e => (Err e, bytes)
  | Panic => (Panic, bytes)
  end.

(** src/bip32/extended_key/mod.rs:43-56, write_base58: the array [bytes] (wiped at line 53 unless the encoder
    reports an error at line 52) and the buffer of the caller, at its return.  What the encoder leaves in the
    buffer of the caller when it fails is not modelled (the buffer is then shown as zeros); it never fails. *)
Definition write_base58_mem (e : extended_key) : R32 str * (bytes * bytes) :=
  let bytes := ek_payload e in
  match from_b58 (encode_check_into MAX_BASE58_SIZE bytes) with
  | Ok text => (ok_or (from_utf8 text) EBase58, (repeat 0 (length bytes), array (N.to_nat MAX_BASE58_SIZE) text))
  | Err e => (Err e, (bytes, array (N.to_nat MAX_BASE58_SIZE) []))
  | Panic => (Panic, (bytes, array (N.to_nat MAX_BASE58_SIZE) []))
  end.
(** src/bip32/extended_key/mod.rs:59-66, Display: the array [buf] at its return; nothing wipes it. *)
Definition ek_display_mem (e : extended_key) : R32 str * bytes :=
  let '(r, (_, buf)) := write_base58_mem e in (match r with Ok s => Ok s | _ => Panic end, buf).
