(** The field prime and the group order of secp256k1 are prime: Pocklington certificates.
    Generated by tools/gen_primes.py. *)
From Coq Require Import ZArith Znumtheory List.
From Verif Require Import Fermat.
Import ListNotations.
Open Scope Z_scope.

Lemma prime_7 : prime 7.
Proof. apply small_prime_ok. vm_compute. reflexivity. Qed.
Lemma prime_19 : prime 19.
Proof. apply small_prime_ok. vm_compute. reflexivity. Qed.
Lemma prime_29 : prime 29.
Proof. apply small_prime_ok. vm_compute. reflexivity. Qed.
Lemma prime_53 : prime 53.
Proof. apply small_prime_ok. vm_compute. reflexivity. Qed.
Lemma prime_101 : prime 101.
Proof. apply small_prime_ok. vm_compute. reflexivity. Qed.
Lemma prime_113 : prime 113.
Proof. apply small_prime_ok. vm_compute. reflexivity. Qed.
Lemma prime_239 : prime 239.
Proof. apply small_prime_ok. vm_compute. reflexivity. Qed.
Lemma prime_419 : prime 419.
Proof. apply small_prime_ok. vm_compute. reflexivity. Qed.
Lemma prime_1409 : prime 1409.
Proof. apply small_prime_ok. vm_compute. reflexivity. Qed.
Lemma prime_1871 : prime 1871.
Proof. apply small_prime_ok. vm_compute. reflexivity. Qed.
Lemma prime_9349 : prime 9349.
Proof. apply small_prime_ok. vm_compute. reflexivity. Qed.
Lemma prime_107590001 : prime 107590001.
Proof.
  apply (check_cert_ok (barrett 107590001 42863518687 19 43) _ 2 [(53, 75712971); (29, 100085220); (7, 4923006)]); [apply barrett_ok| |vm_compute; reflexivity].
  intros q Hq. cbn [map fst In] in Hq.
  repeat (destruct Hq as [<-|Hq]; [solve [exact prime_53|exact prime_29|exact prime_7]|]). destruct Hq.
Qed.
Lemma prime_20113 : prime 20113.
Proof.
  apply (check_cert_ok (barrett 20113 13666678 7 31) _ 2 [(419, 17111)]); [apply barrett_ok| |vm_compute; reflexivity].
  intros q Hq. cbn [map fst In] in Hq.
  repeat (destruct Hq as [<-|Hq]; [solve [exact prime_419]|]). destruct Hq.
Qed.
Lemma prime_1206781 : prime 1206781.
Proof.
  apply (check_cert_ok (barrett 1206781 932977820 13 37) _ 2 [(20113, 709359)]); [apply barrett_ok| |vm_compute; reflexivity].
  intros q Hq. cbn [map fst In] in Hq.
  repeat (destruct Hq as [<-|Hq]; [solve [exact prime_20113]|]). destruct Hq.
Qed.
Lemma prime_7240687 : prime 7240687.
Proof.
  apply (check_cert_ok (barrett 7240687 2487940510 15 39) _ 2 [(1206781, 5746577)]); [apply barrett_ok| |vm_compute; reflexivity].
  intros q Hq. cbn [map fst In] in Hq.
  repeat (destruct Hq as [<-|Hq]; [solve [exact prime_1206781]|]). destruct Hq.
Qed.
Lemma prime_96557 : prime 96557.
Proof.
  apply (check_cert_ok (barrett 96557 45548707 9 33) _ 2 [(239, 8329); (101, 50445)]); [apply barrett_ok| |vm_compute; reflexivity].
  intros q Hq. cbn [map fst In] in Hq.
  repeat (destruct Hq as [<-|Hq]; [solve [exact prime_239|exact prime_101]|]). destruct Hq.
Qed.
Lemma prime_255515944373312847190720520512484175977 : prime 255515944373312847190720520512484175977.
Proof.
  apply (check_cert_ok (barrett 255515944373312847190720520512484175977 116011448590638171089406205920954080977920 120 144) _ 2 [(107590001, 235081362755335172132203715226758066727); (7240687, 175544394104025381149509263364095140941); (96557, 52333299885033245219942804006191421971)]); [apply barrett_ok| |vm_compute; reflexivity].
  intros q Hq. cbn [map fst In] in Hq.
  repeat (destruct Hq as [<-|Hq]; [solve [exact prime_107590001|exact prime_7240687|exact prime_96557]|]). destruct Hq.
Qed.
Lemma prime_205115282021455665897114700593932402728804164701536103180137503955397371 : prime 205115282021455665897114700593932402728804164701536103180137503955397371.
Proof.
  apply (check_cert_ok (barrett 205115282021455665897114700593932402728804164701536103180137503955397371 60877932049732853912660050763817983788571952174805796232710289060433917096 229 253) _ 2 [(255515944373312847190720520512484175977, 81475874003799270243122483189086420723726815346591292526890606927317739)]); [apply barrett_ok| |vm_compute; reflexivity].
  intros q Hq. cbn [map fst In] in Hq.
  repeat (destruct Hq as [<-|Hq]; [solve [exact prime_255515944373312847190720520512484175977]|]). destruct Hq.
Qed.
Lemma prime_p : prime (2 ^ 256 - 2 ^ 32 - 977).
Proof.
  apply (check_cert_ok (fun x => fold_red 256 4294968273 (fold_red 256 4294968273 x)) _ 2 [(205115282021455665897114700593932402728804164701536103180137503955397371, 38738227534097492269493948901333532538630784921480042032654553727346127695815)]); [intros N; exact (keeps_comp _ _ _ (fold_red_ok _ 256 4294968273 ltac:(discriminate) eq_refl N) (fold_red_ok _ 256 4294968273 ltac:(discriminate) eq_refl N))| |vm_compute; reflexivity].
  intros q Hq. cbn [map fst In] in Hq.
  repeat (destruct Hq as [<-|Hq]; [solve [exact prime_205115282021455665897114700593932402728804164701536103180137503955397371]|]). destruct Hq.
Qed.
Lemma prime_1627771 : prime 1627771.
Proof.
  apply (check_cert_ok (barrett 1627771 691682003 13 37) _ 2 [(1871, 589711)]); [apply barrett_ok| |vm_compute; reflexivity].
  intros q Hq. cbn [map fst In] in Hq.
  repeat (destruct Hq as [<-|Hq]; [solve [exact prime_1871]|]). destruct Hq.
Qed.
Lemma prime_297159362677 : prime 297159362677.
Proof.
  apply (check_cert_ok (barrett 297159362677 260369559815739 31 55) _ 2 [(1627771, 44169280672)]); [apply barrett_ok| |vm_compute; reflexivity].
  intros q Hq. cbn [map fst In] in Hq.
  repeat (destruct Hq as [<-|Hq]; [solve [exact prime_1627771]|]). destruct Hq.
Qed.
Lemma prime_28181 : prime 28181.
Proof.
  apply (check_cert_ok (barrett 28181 9754015 7 31) _ 2 [(1409, 16200)]); [apply barrett_ok| |vm_compute; reflexivity].
  intros q Hq. cbn [map fst In] in Hq.
  repeat (destruct Hq as [<-|Hq]; [solve [exact prime_1409]|]). destruct Hq.
Qed.
Lemma prime_545358713 : prime 545358713.
Proof.
  apply (check_cert_ok (barrett 545358713 541199577716 22 46) _ 2 [(28181, 160797069)]); [apply barrett_ok| |vm_compute; reflexivity].
  intros q Hq. cbn [map fst In] in Hq.
  repeat (destruct Hq as [<-|Hq]; [solve [exact prime_28181]|]). destruct Hq.
Qed.
Lemma prime_29047611873442575647497758179 : prime 29047611873442575647497758179.
Proof.
  apply (check_cert_ok (barrett 29047611873442575647497758179 13830207895060807695449386897627 87 111) _ 2 [(297159362677, 7881196461825673388358983901); (545358713, 9643653164146849936640551407)]); [apply barrett_ok| |vm_compute; reflexivity].
  intros q Hq. cbn [map fst In] in Hq.
  repeat (destruct Hq as [<-|Hq]; [solve [exact prime_297159362677|exact prime_545358713]|]). destruct Hq.
Qed.
Lemma prime_341948486974166000522343609283189 : prime 341948486974166000522343609283189.
Proof.
  apply (check_cert_ok (barrett 341948486974166000522343609283189 315368515365736328699988557321192252 101 125) _ 2 [(29047611873442575647497758179, 230912421032721991545077801069578)]); [apply barrett_ok| |vm_compute; reflexivity].
  intros q Hq. cbn [map fst In] in Hq.
  repeat (destruct Hq as [<-|Hq]; [solve [exact prime_29047611873442575647497758179]|]). destruct Hq.
Qed.
Lemma prime_44706919 : prime 44706919.
Proof.
  apply (check_cert_ok (barrett 44706919 25788435669 18 42) _ 2 [(9349, 35850462)]); [apply barrett_ok| |vm_compute; reflexivity].
  intros q Hq. cbn [map fst In] in Hq.
  repeat (destruct Hq as [<-|Hq]; [solve [exact prime_9349]|]). destruct Hq.
Qed.
Lemma prime_120233 : prime 120233.
Proof.
  apply (check_cert_ok (barrett 120233 36579362 9 33) _ 2 [(113, 118505); (19, 83923)]); [apply barrett_ok| |vm_compute; reflexivity].
  intros q Hq. cbn [map fst In] in Hq.
  repeat (destruct Hq as [<-|Hq]; [solve [exact prime_113|exact prime_19]|]). destruct Hq.
Qed.
Lemma prime_174723607534414371449 : prime 174723607534414371449.
Proof.
  apply (check_cert_ok (barrett 174723607534414371449 127634413650360126753317 60 84) _ 2 [(44706919, 97513711501333925610); (120233, 14283963398578376782)]); [apply barrett_ok| |vm_compute; reflexivity].
  intros q Hq. cbn [map fst In] in Hq.
  repeat (destruct Hq as [<-|Hq]; [solve [exact prime_44706919|exact prime_120233]|]). destruct Hq.
Qed.
Lemma prime_n : prime 0xfffffffffffffffffffffffffffffffebaaedce6af48a03bbfd25e8cd0364141.
Proof.
  apply (check_cert_ok (fun x => fold_red 256 432420386565659656852420866394968145599 (fold_red 256 432420386565659656852420866394968145599 (fold_red 256 432420386565659656852420866394968145599 x))) _ 2 [(341948486974166000522343609283189, 57112704531168816596589732607440886458891436705097388389849158079043094771009); (174723607534414371449, 82825258999207434266669200773575514537865192807825383256844795767869923999078)]); [intros N; exact (keeps_comp _ _ _ (fold_red_ok _ 256 432420386565659656852420866394968145599 ltac:(discriminate) eq_refl N) (keeps_comp _ _ _ (fold_red_ok _ 256 432420386565659656852420866394968145599 ltac:(discriminate) eq_refl N) (fold_red_ok _ 256 432420386565659656852420866394968145599 ltac:(discriminate) eq_refl N)))| |vm_compute; reflexivity].
  intros q Hq. cbn [map fst In] in Hq.
  repeat (destruct Hq as [<-|Hq]; [solve [exact prime_341948486974166000522343609283189|exact prime_174723607534414371449]|]). destruct Hq.
Qed.
