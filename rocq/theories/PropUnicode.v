(** Unicode normalisation and UTF-8 C94 - C95.

    Statements only: every theorem is closed by the lemma of the same name (in lower case) in
    UnicodeThms.v.  Generated by tools/gen_prop.py. *)
From Coq Require Import String.
From Verif Require Import Outcome Bytes Str Nfkd SpecUnicode.
From Verif Require UnicodeThms.
Open Scope N_scope.

(** ** C94. NFKD is normalisation form KD.  The text handed to the word list and to the salt is the one text
    that Unicode defines as form KD: every character replaced by its full compatibility decomposition (Hangul
    syllables by arithmetic), then neighbouring marks exchanged until none is out of order. The result needs
    no further normalisation. *)
Theorem C94_nfkd : forall s t : str, is_nfkd s t <-> t = nfkd s.
Proof. exact UnicodeThms.c94_nfkd. Qed.
Print Assumptions C94_nfkd.
(** A decomposition needs no further decomposition; text in form KD is left alone. *)
Theorem C94_complete : forall s t : str, is_nfkd s t -> is_nfkd t t.
Proof. exact UnicodeThms.c94_complete. Qed.
Print Assumptions C94_complete.
(** An accented letter with a second mark below: the mark of lower class comes first; a syllable of Hangul. *)
Example C94_example : is_nfkd [0xE9; 0x323; 0xD55C] [0x65; 0x323; 0x301; 0x1112; 0x1161; 0x11AB].
Proof. exact UnicodeThms.c94_example. Qed.

(** ** C95. UTF-8 is that of RFC 3629 and loses nothing.  The bytes of a string are those of RFC 3629 and
    determine it; two passphrases give the same PBKDF2 salt exactly if they have the same form KD. *)
Theorem C95_utf8 : forall (s : str) (b : bytes), Forall is_scalar s -> is_utf8 s b <-> b = utf8 s.
Proof. exact UnicodeThms.c95_utf8. Qed.
Print Assumptions C95_utf8.
Theorem C95_decodable : forall (s s' : str) (b : bytes), is_utf8 s b -> is_utf8 s' b -> s = s'.
Proof. exact UnicodeThms.c95_decodable. Qed.
Print Assumptions C95_decodable.
(** Two passphrases give the same PBKDF2 salt exactly if their forms KD are the same. *)
Theorem C95_salts : forall pw pw' : str, Forall is_scalar pw -> Forall is_scalar pw' ->
  utf8 (nfkd (lit "mnemonic" ++ pw)) = utf8 (nfkd (lit "mnemonic" ++ pw')) <-> exists t, is_nfkd pw t /\ is_nfkd pw' t.
Proof. exact UnicodeThms.c95_salts. Qed.
Print Assumptions C95_salts.
(** The euro sign and a character outside the basic plane; composed and decomposed form of a passphrase. *)
Example C95_example : is_utf8 [0x20AC; 0x10348] [0xE2; 0x82; 0xAC; 0xF0; 0x90; 0x8D; 0x88]
  /\ is_nfkd [0xE9] [0x65; 0x301] /\ is_nfkd [0x65; 0x301] [0x65; 0x301].
Proof. exact UnicodeThms.c95_example. Qed.
