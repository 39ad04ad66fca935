(** Rust strings and the parts of [str]/[char]/[u32] of the Rust standard library the crate uses.
    (The standard library is not part of /repo; these follow its documentation.) *)
From Coq Require Import String Ascii.
From Verif Require Import Outcome Bytes.
Open Scope N_scope.

(** A [&str] is the list of its Unicode scalar values ([char]s). *)
Notation str := (list N).

(** The type invariant of [char]. *)
Definition char_ok (c : N) : Prop := c < 0xD800 \/ (0xE000 <= c /\ c < 0x110000).
Definition str_ok (s : str) : Prop := Forall char_ok s.

(** String literals of the Rust source (ASCII only). *)
Definition lit (s : string) : str := map N_of_ascii (list_ascii_of_string s).

(** [str::as_bytes]: UTF-8. *)
Definition utf8_char (c : N) : bytes :=
  if c <? 0x80 then [c]
  else if c <? 0x800 then [0xC0 + c / 64; 0x80 + c mod 64]
  else if c <? 0x10000 then [0xE0 + c / 4096; 0x80 + (c / 64) mod 64; 0x80 + c mod 64]
  else [0xF0 + c / 262144; 0x80 + (c / 4096) mod 64; 0x80 + (c / 64) mod 64; 0x80 + c mod 64].
Definition utf8 (s : str) : bytes := flat_map utf8_char s.

(** Decoding of UTF-8 text files embedded with [include_str!] (1 to 3 byte sequences). *)
Fixpoint utf8_decode (l : bytes) : str :=
  match l with
  | [] => []
  | a :: l1 =>
      if a <? 0x80 then a :: utf8_decode l1
      else match l1 with
           | [] => []
           | b :: l2 =>
               if a <? 0xE0 then ((a - 0xC0) * 64 + (b - 0x80)) :: utf8_decode l2
               else match l2 with
                    | [] => []
                    | c :: l3 => ((a - 0xE0) * 4096 + (b - 0x80) * 64 + (c - 0x80)) :: utf8_decode l3
                    end
           end
  end.

(** [char::is_whitespace]: the Unicode property White_Space. *)
Definition is_whitespace (c : N) : bool :=
  ((9 <=? c) && (c <=? 13)) || (c =? 0x20) || (c =? 0x85) || (c =? 0xA0) || (c =? 0x1680)
  || ((0x2000 <=? c) && (c <=? 0x200A)) || (c =? 0x2028) || (c =? 0x2029) || (c =? 0x202F)
  || (c =? 0x205F) || (c =? 0x3000).

(** [str::split] with a character predicate: the pieces between separators (always at least one piece). *)
Fixpoint split_pred (p : N -> bool) (s : str) : list str :=
  match s with
  | [] => [[]]
  | c :: s' =>
      if p c then [] :: split_pred p s'
      else match split_pred p s' with
           | [] => [[c]]
           | w :: ws => (c :: w) :: ws
           end
  end.
Definition split_char (c : N) (s : str) : list str := split_pred (N.eqb c) s.

(** [str::split_whitespace]: split at white space, empty pieces dropped. *)
Definition split_whitespace (s : str) : list str :=
  filter (fun w => match w with [] => false | _ => true end) (split_pred is_whitespace s).

(** [str::starts_with]. *)
Fixpoint starts_with (s p : str) : bool :=
  match p, s with
  | [], _ => true
  | y :: p', x :: s' => (x =? y) && starts_with s' p'
  | _ :: _, [] => false
  end.

(** [str::to_ascii_lowercase]. *)
Definition to_ascii_lowercase (s : str) : str :=
  map (fun c => if (65 <=? c) && (c <=? 90) then c + 32 else c) s.

(** [str::strip_suffix] with a character. *)
Definition strip_suffix (c : N) (s : str) : option str :=
  match rev s with
  | [] => None
  | x :: r => if x =? c then Some (rev r) else None
  end.

(** [u32::from_str]: optional [+], then at least one ASCII digit; [None] stands for any [ParseIntError]
    (empty, invalid digit, overflow).  The accumulator uses [checked_mul]/[checked_add]. *)
Fixpoint parse_digits (acc : N) (s : str) : option N :=
  match s with
  | [] => Some acc
  | c :: s' =>
      if (48 <=? c) && (c <=? 57) then
        if acc * 10 <? 2 ^ 32 then
          if acc * 10 + (c - 48) <? 2 ^ 32 then parse_digits (acc * 10 + (c - 48)) s' else None
        else None
      else None
  end.
Definition parse_u32 (s : str) : option N :=
  match s with
  | [] => None
  | c :: s' =>
      if c =? 43 (* '+' *) then match s' with [] => None | _ => parse_digits 0 s' end
      else parse_digits 0 s
  end.

(** [Display for u32]: decimal, no leading zeros. *)
Fixpoint dec_digits (fuel : nat) (n : N) : list N :=
  match fuel with
  | O => []
  | S f => if n <? 10 then [n] else dec_digits f (n / 10) ++ [n mod 10]
  end.
Definition dec_str (n : N) : str := map (fun d => d + 48) (dec_digits (S (N.size_nat n)) n).

(** [{:02x}] / [{:02X}] of a byte. *)
Definition hex_digit (upper : bool) (d : N) : N :=
  if d <? 10 then 48 + d else if upper then 55 + d else 87 + d.
Definition hex_byte (upper : bool) (b : N) : str := [hex_digit upper (b / 16); hex_digit upper (b mod 16)].

(** Joining pieces with a separator. *)
Fixpoint join (glue : str) (ws : list str) : str :=
  match ws with
  | [] => []
  | [w] => w
  | w :: ws' => w ++ glue ++ join glue ws'
  end.

Definition str_eqb (a b : str) : bool := bytes_eqb a b.

(** [Ord for str]: lexicographic on UTF-8 bytes, which is lexicographic on scalar values. *)
Fixpoint str_cmp (a b : str) : comparison :=
  match a, b with
  | [], [] => Eq
  | [], _ :: _ => Lt
  | _ :: _, [] => Gt
  | x :: a', y :: b' => match x ?= y with Eq => str_cmp a' b' | c => c end
  end.
