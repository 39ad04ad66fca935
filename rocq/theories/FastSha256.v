(** SHA-256 on the machine integers of the kernel, to compute checksums of long texts in proofs (FastSha256Proofs.v shows
    that it is that of Hash.v).  [force] makes lazy evaluation compute every word at once. *)
From Coq Require Import Uint63 ZArith.
From Verif Require Import Outcome Bytes Hash.
Open Scope uint63_scope.

Definition gks : list int := [
  0x428a2f98; 0x71374491; 0xb5c0fbcf; 0xe9b5dba5; 0x3956c25b; 0x59f111f1; 0x923f82a4; 0xab1c5ed5;
  0xd807aa98; 0x12835b01; 0x243185be; 0x550c7dc3; 0x72be5d74; 0x80deb1fe; 0x9bdc06a7; 0xc19bf174;
  0xe49b69c1; 0xefbe4786; 0x0fc19dc6; 0x240ca1cc; 0x2de92c6f; 0x4a7484aa; 0x5cb0a9dc; 0x76f988da;
  0x983e5152; 0xa831c66d; 0xb00327c8; 0xbf597fc7; 0xc6e00bf3; 0xd5a79147; 0x06ca6351; 0x14292967;
  0x27b70a85; 0x2e1b2138; 0x4d2c6dfc; 0x53380d13; 0x650a7354; 0x766a0abb; 0x81c2c92e; 0x92722c85;
  0xa2bfe8a1; 0xa81a664b; 0xc24b8b70; 0xc76c51a3; 0xd192e819; 0xd6990624; 0xf40e3585; 0x106aa070;
  0x19a4c116; 0x1e376c08; 0x2748774c; 0x34b0bcb5; 0x391c0cb3; 0x4ed8aa4a; 0x5b9cca4f; 0x682e6ff3;
  0x748f82ee; 0x78a5636f; 0x84c87814; 0x8cc70208; 0x90befffa; 0xa4506ceb; 0xbef9a3f7; 0xc67178f2].
Definition gmask (x : int) : int := x land 0xffffffff.
Definition gS0 (x : int) : int := gmask (((x >> 2) lxor (x << 30)) lxor (((x >> 13) lxor (x << 19)) lxor ((x >> 22) lxor (x << 10)))).
Definition gS1 (x : int) : int := gmask (((x >> 6) lxor (x << 26)) lxor (((x >> 11) lxor (x << 21)) lxor ((x >> 25) lxor (x << 7)))).
Definition gg0 (x : int) : int := gmask (((x >> 7) lxor (x << 25)) lxor (((x >> 18) lxor (x << 14)) lxor (x >> 3))).
Definition gg1 (x : int) : int := gmask (((x >> 17) lxor (x << 15)) lxor (((x >> 19) lxor (x << 13)) lxor (x >> 10))).
Definition gch (a b c : int) : int := c lxor (a land (b lxor c)).
Definition gmaj (a b c : int) : int := (a land b) lxor (c land (a lxor b)).
Definition gforce {A} (a : int) (k : int -> A) : A := if a =? 0 then k a else k a.

Inductive gst8 := GSt (a b c d e f g h : int).
Inductive gwin := GWin (w0 w1 w2 w3 w4 w5 w6 w7 w8 w9 w10 w11 w12 w13 w14 w15 : int).
Definition gnext {A} (s : gwin) (k : gwin -> A) : A :=
  match s with GWin w0 w1 w2 w3 w4 w5 w6 w7 w8 w9 w10 w11 w12 w13 w14 w15 =>
    gforce (gmask ((gg1 w14 + w9) + (gg0 w1 + w0)))
      (fun w16 => k (GWin w1 w2 w3 w4 w5 w6 w7 w8 w9 w10 w11 w12 w13 w14 w15 w16)) end.
Definition gfirst (s : gwin) : int := match s with GWin w0 _ _ _ _ _ _ _ _ _ _ _ _ _ _ _ => w0 end.
Definition ground {A} (s : gst8) (kc w : int) (k : gst8 -> A) : A :=
  match s with GSt a b c d e f g h =>
    gforce (gmask ((h + gS1 e) + ((gch e f g + kc) + w))) (fun t1 =>
    gforce (gmask (d + t1)) (fun e' => gforce (gmask (t1 + (gS0 a + gmaj a b c))) (fun a' => k (GSt a' a b c e' e f g)))) end.
Fixpoint grounds (ks : list int) (v : gwin) (s : gst8) : gst8 :=
  match ks with
  | [] => s
  | kc :: ks' => ground s kc (gfirst v) (fun s' => gnext v (fun v' => grounds ks' v' s'))
  end.
Definition gadd {A} (s t : gst8) (k : gst8 -> A) : A :=
  match s, t with GSt a b c d e f g h, GSt a' b' c' d' e' f' g' h' =>
    gforce (gmask (a + a')) (fun a => gforce (gmask (b + b')) (fun b => gforce (gmask (c + c')) (fun c => gforce (gmask (d + d')) (fun d =>
    gforce (gmask (e + e')) (fun e => gforce (gmask (f + f')) (fun f => gforce (gmask (g + g')) (fun g => gforce (gmask (h + h')) (fun h =>
    k (GSt a b c d e f g h))))))))) end.
Definition giv : gst8 := GSt 0x6a09e667 0xbb67ae85 0x3c6ef372 0xa54ff53a 0x510e527f 0x9b05688c 0x1f83d9ab 0x5be0cd19.
(** Bytes as words. *)
Definition gbyte (b : N) : int := of_Z (Z.of_N b).
Fixpoint gwords (l : list N) : list int :=
  match l with
  | a :: b :: c :: d :: l' => (((((gbyte a << 8) lor gbyte b) << 8) lor gbyte c) << 8) lor gbyte d :: gwords l'
  | _ => []
  end.
Definition gwin_of (l : list int) : gwin :=
  match l with
  | [w0; w1; w2; w3; w4; w5; w6; w7; w8; w9; w10; w11; w12; w13; w14; w15] => GWin w0 w1 w2 w3 w4 w5 w6 w7 w8 w9 w10 w11 w12 w13 w14 w15
  | _ => GWin 0 0 0 0 0 0 0 0 0 0 0 0 0 0 0 0
  end.
Fixpoint gabsorb (fuel : nat) (m : list N) (s : gst8) : gst8 :=
  match fuel with
  | O => s
  | S f => match m with
           | [] => s
           | _ => gadd s (grounds gks (gwin_of (gwords (firstn 64 m))) s) (fun s' => gabsorb f (skipn 64 m) s')
           end
  end.
Definition gsha256 (m : list N) : gst8 :=
  let p := m ++ pad sha256_params (length m) in gabsorb (length p) p giv.
