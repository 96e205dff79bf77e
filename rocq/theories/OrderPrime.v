(** The order of the secp256k1 group is prime. *)
From Coq Require Import ZArith Znumtheory.
From Verif Require Import EcModel PrimeProofs.
Local Open Scope Z_scope.
Lemma prime_1409 : prime 1409. Proof. apply small_prime_ok. vm_compute. reflexivity. Qed.
Lemma prime_1871 : prime 1871. Proof. apply small_prime_ok. vm_compute. reflexivity. Qed.
Lemma prime_9349 : prime 9349. Proof. apply small_prime_ok. vm_compute. reflexivity. Qed.
Lemma prime_4051 : prime 4051. Proof. apply small_prime_ok. vm_compute. reflexivity. Qed.
Lemma prime_28181 : prime 28181.
Proof. apply (certified_prime 2 28181 20 1409 1); [vm_compute; reflexivity|exact prime_1409|left; reflexivity|discriminate]. Qed.
Lemma prime_1627771 : prime 1627771.
Proof. apply (certified_prime 2 1627771 870 1871 1); [vm_compute; reflexivity|exact prime_1871|left; reflexivity|discriminate]. Qed.
Lemma prime_44706919 : prime 44706919.
Proof. apply (certified_prime 2 44706919 4782 9349 1); [vm_compute; reflexivity|exact prime_9349|left; reflexivity|discriminate]. Qed.
Lemma prime_297159362677 : prime 297159362677.
Proof. apply (certified_prime 2 297159362677 182556 1627771 1); [vm_compute; reflexivity|exact prime_1627771|left; reflexivity|discriminate]. Qed.
Lemma prime_545358713 : prime 545358713.
Proof. apply (certified_prime 2 545358713 19352 28181 1); [vm_compute; reflexivity|exact prime_28181|left; reflexivity|discriminate]. Qed.
Lemma prime_29047611873442575647497758179 : prime 29047611873442575647497758179.
Proof. apply (certified_prime 2 29047611873442575647497758179 179241578 297159362677 545358713); [vm_compute; reflexivity|exact prime_297159362677|right; exact prime_545358713|discriminate]. Qed.
Lemma prime_341948486974166000522343609283189 : prime 341948486974166000522343609283189.
Proof. apply (certified_prime 2 341948486974166000522343609283189 11772 29047611873442575647497758179 1); [vm_compute; reflexivity|exact prime_29047611873442575647497758179|left; reflexivity|discriminate]. Qed.
Lemma prime_174723607534414371449 : prime 174723607534414371449.
Proof. apply (certified_prime 3 174723607534414371449 964749592 44706919 4051); [vm_compute; reflexivity|exact prime_44706919|right; exact prime_4051|discriminate]. Qed.
Lemma prime_order : prime order.
Proof. apply (certified_prime 2 order 1938057310625759192294976 341948486974166000522343609283189 174723607534414371449); [vm_compute; reflexivity|exact prime_341948486974166000522343609283189|right; exact prime_174723607534414371449|discriminate]. Qed.
Lemma order_mul a b : 0 < a < order -> 0 < b < order -> (a * b) mod order <> 0.
Proof.
  intros A B E. apply Z.mod_divide in E; [|unfold order; discriminate]. apply prime_mult in E; [|exact prime_order].
  destruct E as [E|E]; apply Z.divide_pos_le in E; destruct A, B; try assumption; apply (Z.lt_irrefl order); eapply Z.le_lt_trans; eassumption.
Qed.
