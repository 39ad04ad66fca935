(** Tests, not proofs: the model run on published vectors and on the unit tests of /repo.
    Each [Check] asks the virtual machine for the value and fails to compile if it is wrong; no constant is
    left behind.  The tests in [slow_tests] take minutes each in the virtual machine; tools/vectors.sh extracts
    them to OCaml and runs them. *)
From Coq Require Import String.
From Verif Require Import Outcome Bytes Str Hash Ripemd Nfkd ModelBip39 SpecBip39 Secp Base58 ModelBip32 SpecWallet.
Open Scope N_scope.

Definition unhex_lit (s : string) : bytes := match unhex false (lit s) with Some b => b | None => [] end.
Definition is {A} (eqb : A -> A -> bool) {E} (m : res E A) (a : A) : bool := match m with Ok x => eqb x a | _ => false end.
Definition same (a b : list N) : bool := bytes_eqb a b.

(** FIPS 180-4, RFC 4231 case 2, the RIPEMD-160 paper *)
Check (eq_refl true <: same (sha256 (lit "abc")) (unhex_lit "ba7816bf8f01cfea414140de5dae2223b00361a396177a9cb410ff61f20015ad") = true).
Check (eq_refl true <: same (sha256 (lit "abcdbcdecdefdefgefghfghighijhijkijkljklmklmnlmnomnopnopq"))
  (unhex_lit "248d6a61d20638b8e5c026930c3e6039a33ce45964ff2167f6ecedd419db06c1") = true).
Check (eq_refl true <: same (sha512 (lit "abc")) (unhex_lit
  "ddaf35a193617abacc417349ae20413112e6fa4e89a97ea20a9eeee64b55d39a2192992a274fc1a836ba3c23a3feebbd454d4423643ce80e2a9ac94fa54ca49f") = true).
Check (eq_refl true <: same (hmac_sha256 (lit "Jefe") (lit "what do ya want for nothing?"))
  (unhex_lit "5bdcc146bf60754e6a042426089575c75a003f089d2739839dec58b964ec3843") = true).
Check (eq_refl true <: same (hmac_sha512 (lit "Jefe") (lit "what do ya want for nothing?")) (unhex_lit
  "164b7a7bfcf819e2e395fbe73b56e0a387bd64222e831fd610270cd7ea2505549758bf75c05a994a6d034f65f8f0e6fdcaeab1a34d4a6b4b636e070a38bce737") = true).
Check (eq_refl true <: same (ripemd (lit "abc")) (lit "8eb208f7e05d987a9b044a8e98c6b087f15a0bfc") = true).
Check (eq_refl true <: same (ripemd (lit "abcdbcdecdefdefgefghfghighijhijkijkljklmklmnlmnomnopnopq")) (lit "12a053384a9c0c88e405a06c27dcf49ada62eb2b") = true).

(** src/bip39/mnemonic.rs:348-410 *)
Definition crop_entropy : bytes := [0x33; 0xE4; 0x6B; 0xB1; 0x3A; 0x74; 0x6E; 0xA4; 0x1C; 0xDD; 0xE4; 0x5C; 0x90; 0x84; 0x6A; 0x79].
Definition crop_phrase : str := lit "crop cash unable insane eight faith inflict route frame loud box vibrant".
Check (eq_refl true <: is (fun m s => same (m_phrase m) (m_phrase s)) (from_entropy crop_entropy English) (Mnemonic crop_phrase English []) = true).
Check (eq_refl true <: is (fun m s => same (m_entropy m) (m_entropy s)) (from_phrase crop_phrase English) (Mnemonic [] English crop_entropy) = true).
Check (eq_refl true <: same (mnemonic_hex true true (Mnemonic [] English crop_entropy)) (lit "0x33E46BB13A746EA41CDDE45C90846A79") = true).
(** src/bip39/language.rs:230-250 and 385 *)
Check (eq_refl true <: is (fun a b => same (List.concat a) (List.concat b)) (get_words_by_prefix (wordlist English) (lit "woo")) [lit "wood"; lit "wool"] = true).
Check (eq_refl true <: is (fun a _ => len a =? 2048) (get_words_by_prefix (wordlist English) []) [] = true).
Check (eq_refl true <: is (fun a _ => len a =? 0) (get_words_by_prefix (wordlist English) (lit "woof")) [] = true).
(** How many of the 2048 Chinese words are found under their own prefix (see C19). *)
Definition found (search : list str -> str -> res error_kind (N + N)) (wl : list str) (p : str) : bool :=
  match get_words_by_prefix_with search wl p with Ok (_ :: _) => true | _ => false end.
Definition count_found (search : list str -> str -> res error_kind (N + N)) (wl : list str) : N :=
  len (filter (found search wl) wl).
Check (eq_refl true <: (count_found binary_search (wordlist ChineseSimplified) =? 18) = true).
Check (eq_refl true <: (count_found binary_search_new (wordlist ChineseSimplified) =? 7) = true).
Check (eq_refl true <: (count_found binary_search (wordlist English) =? 2048) = true).
Check (eq_refl true <: match language_from_phrase (lit "heavy face learn track claw jaguar pigeon uncle seven enough glow where") with
  Some English => true | _ => false end = true).

(** src/bip32/derivation_path.rs:112-160, src/bip32/child_number.rs:100-125 *)
Check (eq_refl true <: forallb (fun s => is same (let* p := path_from_str (lit s) in Ok (path_display p)) (lit s))
  ["m"; "m/0"; "m/0/2147483647'"; "m/0/2147483647'/1"; "m/0/2147483647'/1/2147483646'"; "m/0/2147483647'/1/2147483646'/2"]%string = true).
Check (eq_refl true <: is N.eqb (child_from_str (lit "42'")) (2 ^ 31 + 42) = true).
Check (eq_refl true <: match child_from_str (lit "42!") with Err EChildNumber => true | _ => false end = true).


(** The slow tests *)
Definition seed1 : bytes := unhex_lit "000102030405060708090a0b0c0d0e0f".
Definition seed2 : bytes := unhex_lit "fffcf9f6f3f0edeae7e4e1dedbd8d5d2cfccc9c6c3c0bdbab7b4b1aeaba8a5a29f9c999693908d8a8784817e7b7875726f6c696663605d5a5754514e4b484542".
Definition at_path (seed : bytes) (s : string) : R32 xprv := let* p := path_from_str (lit s) in xprv_new_from_path seed p.
Definition prv_is (seed : bytes) (s expected : string) : bool := is same (let* x := at_path seed s in xprv_to_string x XPRV) (lit expected).
Definition pub_is (seed : bytes) (s expected : string) : bool :=
  is same (let* x := at_path seed s in xpub_to_string (xprv_public_key x) XPUB) (lit expected).
Definition seed_is (phrase password expected : string) : bool :=
  is same (let* m := from_phrase (utf8_decode (lit phrase)) English in seed_new m (utf8_decode (lit password))) (unhex_lit expected).
Definition slow_tests : list (string * (unit -> bool)) := [
  (* src/bip39/seed.rs:100-115 *)
  ("seed_hex_format", fun _ => seed_is "crop cash unable insane eight faith inflict route frame loud box vibrant" "password"
    "0bde96f14c35a66235478e0c16c152fcaf6301e4d9a81d3febc50879fe7e5438e6a8dd3e39bdf3ab7b12d6b44218710e17d7a2844ee9633fab0e03d9a6c8569b");
  (* src/bip39/seed.rs:140-150 *)
  ("password_is_unicode_normalized", fun _ => seed_is "abandon abandon abandon abandon abandon abandon abandon abandon abandon abandon abandon about"
    "nullius　à　nym.zone ¹teſts² English"
    "61f3aa13adcf5f4b8661fc062501d67eca3a53fc0ed129076ad7a22983b6b5ed0e84e47b24cff23b7fca57e127f62f28c1584ed487872d4bfbc773257bdbc434");
  (* src/bip32/mod.rs:54-106 *)
  ("vector 1 m private", fun _ => prv_is seed1 "m" "xprv9s21ZrQH143K3QTDL4LXw2F7HEK3wJUD2nW2nRk4stbPy6cq3jPPqjiChkVvvNKmPGJxWUtg6LnF5kejMRNNU3TGtRBeJgk33yuGBxrMPHi");
  ("vector 1 m public", fun _ => pub_is seed1 "m" "xpub661MyMwAqRbcFtXgS5sYJABqqG9YLmC4Q1Rdap9gSE8NqtwybGhePY2gZ29ESFjqJoCu1Rupje8YtGqsefD265TMg7usUDFdp6W1EGMcet8");
  ("vector 1 m/0' private", fun _ => prv_is seed1 "m/0'" "xprv9uHRZZhk6KAJC1avXpDAp4MDc3sQKNxDiPvvkX8Br5ngLNv1TxvUxt4cV1rGL5hj6KCesnDYUhd7oWgT11eZG7XnxHrnYeSvkzY7d2bhkJ7");
  ("vector 1 m/0' public", fun _ => pub_is seed1 "m/0'" "xpub68Gmy5EdvgibQVfPdqkBBCHxA5htiqg55crXYuXoQRKfDBFA1WEjWgP6LHhwBZeNK1VTsfTFUHCdrfp1bgwQ9xv5ski8PX9rL2dZXvgGDnw");
  ("vector 1 m/0'/1 private", fun _ => prv_is seed1 "m/0'/1" "xprv9wTYmMFdV23N2TdNG573QoEsfRrWKQgWeibmLntzniatZvR9BmLnvSxqu53Kw1UmYPxLgboyZQaXwTCg8MSY3H2EU4pWcQDnRnrVA1xe8fs");
  ("vector 1 m/0'/1 public", fun _ => pub_is seed1 "m/0'/1" "xpub6ASuArnXKPbfEwhqN6e3mwBcDTgzisQN1wXN9BJcM47sSikHjJf3UFHKkNAWbWMiGj7Wf5uMash7SyYq527Hqck2AxYysAA7xmALppuCkwQ");
  ("vector 1 m/0'/1/2' private", fun _ => prv_is seed1 "m/0'/1/2'" "xprv9z4pot5VBttmtdRTWfWQmoH1taj2axGVzFqSb8C9xaxKymcFzXBDptWmT7FwuEzG3ryjH4ktypQSAewRiNMjANTtpgP4mLTj34bhnZX7UiM");
  ("vector 1 m/0'/1/2' public", fun _ => pub_is seed1 "m/0'/1/2'" "xpub6D4BDPcP2GT577Vvch3R8wDkScZWzQzMMUm3PWbmWvVJrZwQY4VUNgqFJPMM3No2dFDFGTsxxpG5uJh7n7epu4trkrX7x7DogT5Uv6fcLW5");
  ("vector 1 m/0'/1/2'/2 private", fun _ => prv_is seed1 "m/0'/1/2'/2" "xprvA2JDeKCSNNZky6uBCviVfJSKyQ1mDYahRjijr5idH2WwLsEd4Hsb2Tyh8RfQMuPh7f7RtyzTtdrbdqqsunu5Mm3wDvUAKRHSC34sJ7in334");
  ("vector 1 m/0'/1/2'/2 public", fun _ => pub_is seed1 "m/0'/1/2'/2" "xpub6FHa3pjLCk84BayeJxFW2SP4XRrFd1JYnxeLeU8EqN3vDfZmbqBqaGJAyiLjTAwm6ZLRQUMv1ZACTj37sR62cfN7fe5JnJ7dh8zL4fiyLHV");
  ("vector 1 m/0'/1/2'/2/1000000000 private", fun _ => prv_is seed1 "m/0'/1/2'/2/1000000000" "xprvA41z7zogVVwxVSgdKUHDy1SKmdb533PjDz7J6N6mV6uS3ze1ai8FHa8kmHScGpWmj4WggLyQjgPie1rFSruoUihUZREPSL39UNdE3BBDu76");
  ("vector 1 m/0'/1/2'/2/1000000000 public", fun _ => pub_is seed1 "m/0'/1/2'/2/1000000000" "xpub6H1LXWLaKsWFhvm6RVpEL9P4KfRZSW7abD2ttkWP3SSQvnyA8FSVqNTEcYFgJS2UaFcxupHiYkro49S8yGasTvXEYBVPamhGW6cFJodrTHy");
  (* src/bip32/private_key.rs:83-96, src/bip32/public_key.rs:75-103 *)
  ("secp256k1_derivation", fun _ => prv_is seed2 "m/0/2147483647'/1/2147483646'/2"
    "xprvA2nrNbFZABcdryreWet9Ea4LvTJcGsqrMzxHx98MMrotbir7yrKCEXw7nadnHM8Dq38EGfSh6dqA9QWTyefMLEcBYJUuekgW4BYPJcr9E7j");
  ("secp256k1_xprv_derivation", fun _ => pub_is seed2 "m/0/2147483647'/1/2147483646'/2"
    "xpub6FnCn6nSzZAw5Tw7cgR9bi15UV96gLZhjDstkXXxvCLsUXBGXPdSnLFbdpq8p9HmGsApME5hQTZ3emM2rnY5agb9rXpVGyy3bdW6EEgAtqt");
  ("secp256k1_ffi_xpub_derivation", fun _ => is same (let* x := at_path seed2 "m/0/2147483647'/1/2147483646'" in
      let* y := xpub_derive_child (xprv_public_key x) 2 in xpub_to_string y XPUB)
    (lit "xpub6FnCn6nSzZAw5Tw7cgR9bi15UV96gLZhjDstkXXxvCLsUXBGXPdSnLFbdpq8p9HmGsApME5hQTZ3emM2rnY5agb9rXpVGyy3bdW6EEgAtqt"));
  (* src/bip32/extended_key/mod.rs:143-163: parse and print *)
  ("bip32_test_vector_1_xpub", fun _ => let s := lit "xpub661MyMwAqRbcFtXgS5sYJABqqG9YLmC4Q1Rdap9gSE8NqtwybGhePY2gZ29ESFjqJoCu1Rupje8YtGqsefD265TMg7usUDFdp6W1EGMcet8" in
    is same (let* x := xpub_from_str s in xpub_to_string x XPUB) s);
  (* src/lib.rs:67-80; the text in the comment there has depth 3 and cannot come from this path, the one below
     was computed with a separate Python program *)
  ("test_xpub", fun _ => is same (let* x := (match from_phrase (lit "deal pretty baby midnight federal capital suggest cheese creek mutual boil shine") English with
        | Ok m => match seed_new m [] with Ok seed => at_path seed "m/44'/60" | _ => Panic end | _ => Panic end) in
      xpub_to_string (xprv_public_key x) XPUB)
    (lit "xpub6Adzg3j8JRQi7hVujrvA2Fq5src6Se8QdCMjza3b35tFgqYp5UKvZMuEba31GNNYTFRamC7D6jYWmhYFkhkZBQ4dC1BVFeJNuH8vqnrSqnR"));
  (* A widely published RFC 6979 vector for secp256k1: key 1, SHA-256 of Satoshi Nakamoto *)
  ("rfc 6979", fun _ => match ecdsa_sign 1 1 (sha256 (lit "Satoshi Nakamoto")) with
    | Some (Ok (sig, recid)) => same sig (unhex_lit
        "934b1ea10a4b3c1757e2b0c017d0b6143ce3c9a7e6a4a49860d7a6ab210ee3d82442ce9d2b916064108014783e923ec36b49743e2ffa1c4496f01a512aafd9e5")
        && (recid =? 1)%N
    | _ => false end)
]%string.
