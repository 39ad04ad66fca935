(** The parts of the crate bs58 0.4 that src/bip32 uses: [encode(..).with_check().into(buffer)] and
    [decode(..).with_check(None).into(buffer)] with the Bitcoin alphabet.

    bs58 is a dependency and its source is not in /repo; the definitions follow its algorithm.  A buffer being
    filled is the list of the digits written so far, least significant first; its capacity is a parameter. *)
From Coq Require Import String.
From Verif Require Import Outcome Bytes Str Hash.
Open Scope N_scope.

Inductive b58_error := BufferTooSmall | NonAsciiCharacter | InvalidCharacter | NoChecksum | InvalidB58Checksum.

(** Alphabet::BITCOIN *)
Definition b58_alphabet : list N := lit "123456789ABCDEFGHJKLMNPQRSTUVWXYZabcdefghijkmnopqrstuvwxyz".
Definition b58_char (d : N) : N := nth (N.to_nat d) b58_alphabet 0.
Fixpoint position (i : N) (c : N) (l : list N) : option N :=
  match l with
  | [] => None
  | x :: l' => if x =? c then Some i else position (i + 1) c l'
  end.
Definition b58_digit (c : N) : option N := position 0 c b58_alphabet.

(** The inner loop: out := out * bi + carry in base bo, keeping the number of digits; the carry left over. *)
Fixpoint mul_add (bi bo : N) (out : list N) (carry : N) : list N * N :=
  match out with
  | [] => ([], carry)
  | d :: out' =>
      let c := carry + d * bi in
      let '(o, c') := mul_add bi bo out' (c / bo) in
      (c mod bo :: o, c')
  end.
(** [while carry > 0]: append the digits of the carry; [carry / bo] loses at least one bit per round, so the
    fuel (the number of bits of the carry) never runs out. *)
Fixpoint push_carry (fuel : nat) (bo cap : N) (out : list N) (carry : N) : res b58_error (list N) :=
  if carry =? 0 then Ok out
  else match fuel with
       | O => Panic
       | S f => if len out =? cap then Err BufferTooSmall else push_carry f bo cap (out ++ [carry mod bo]) (carry / bo)
       end.
(** The outer loop over the input digits (base [bi], most significant first). *)
Fixpoint convert (bi bo cap : N) (input out : list N) : res b58_error (list N) :=
  match input with
  | [] => Ok out
  | d :: input' =>
      let '(o, carry) := mul_add bi bo out d in
      let* o' := push_carry (N.size_nat carry) bo cap o carry in
      convert bi bo cap input' o'
  end.
(** [for _ in input.take_while(zero)]: one zero digit per leading zero of the input. *)
Fixpoint push_zeros (cap : N) (input out : list N) : res b58_error (list N) :=
  match input with
  | 0 :: input' => if len out =? cap then Err BufferTooSmall else push_zeros cap input' (out ++ [0])
  | _ => Ok out
  end.

(** encode_into: base 256 to base 58; the used part of the output. *)
Definition encode_into (cap : N) (input : bytes) : res b58_error (list N) :=
  let* out := convert 256 58 cap input [] in
  let* out' := push_zeros cap input out in
  Ok (rev (map b58_char out')).
(** The checksum: first four bytes of the double SHA-256. *)
Definition check_bytes (payload : bytes) : bytes := firstn 4 (sha256 (sha256 payload)).
(** encode_check_into *)
Definition encode_check_into (cap : N) (payload : bytes) : res b58_error (list N) :=
  encode_into cap (payload ++ check_bytes payload).

(** The digit values of the input characters; the first bad character is reported. *)
Fixpoint b58_digits (input : bytes) : res b58_error (list N) :=
  match input with
  | [] => Ok []
  | c :: input' =>
      if 127 <? c then Err NonAsciiCharacter
      else match b58_digit c with
           | None => Err InvalidCharacter
           | Some d => let* ds := b58_digits input' in Ok (d :: ds)
           end
  end.
(** decode_into: base 58 to base 256.  In bs58 a character is looked up when the loop reaches it, so that an
    overflow of the buffer at an earlier character is reported first; the model looks all characters up
    before.  Both errors become Error::Base58 in the caller, which is all that can be observed. *)
Definition decode_into (cap : N) (input : bytes) : res b58_error bytes :=
  let* ds := b58_digits input in
  let* out := convert 58 256 cap ds [] in
  let* out' := push_zeros cap ds out in
  Ok (rev out').
(** decode_check_into: the payload without its checksum (the caller gets its length and reads the buffer). *)
Definition decode_check_into (cap : N) (input : bytes) : res b58_error bytes :=
  let* out := decode_into cap input in
  if len out <? 4 then Err NoChecksum
  else
    let payload := firstn (length out - 4) out in
    if bytes_eqb (check_bytes payload) (skipn (length out - 4) out) then Ok payload else Err InvalidB58Checksum.
