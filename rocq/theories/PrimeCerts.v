(** Pocklington certificates, generated. *)
From Coq Require Import ZArith Znumtheory List Lia.
From Verif Require Import Primes.
Import ListNotations.
Open Scope Z_scope.

(** Multiplication modulo the two field primes and the order of secp256k1. *)
Definition secp256k1_p : Z := 0xFFFFFFFFFFFFFFFFFFFFFFFFFFFFFFFFFFFFFFFFFFFFFFFFFFFFFFFEFFFFFC2F.
Definition secp256k1_n : Z := 0xFFFFFFFFFFFFFFFFFFFFFFFFFFFFFFFEBAAEDCE6AF48A03BBFD25E8CD0364141.
Definition nist256p1_p : Z := 0xFFFFFFFF00000001000000000000000000000000FFFFFFFFFFFFFFFFFFFFFFFF.
Definition nist256p1_n : Z := 0xFFFFFFFF00000000FFFFFFFFFFFFFFFFBCE6FAADA7179E84F3B9CAC2FC632551.
Definition secp256k1_mulc (h : Z) : Z := Z.shiftl h 32 + 977 * h.
Definition secp256k1_mul : Z -> Z -> Z := fold_mul 2 256 secp256k1_mulc.
Definition nist256p1_mulc (h : Z) : Z := Z.shiftl h 224 - Z.shiftl h 192 - Z.shiftl h 96 + h.
Definition nist256p1_mul : Z -> Z -> Z := fold_mul 9 256 nist256p1_mulc.
Definition secp256k1_nmul : Z -> Z -> Z := fold_mul 3 256 (Z.mul (2 ^ 256 - secp256k1_n)).
Lemma secp256k1_mul_ok : mul_ok secp256k1_p secp256k1_mul.
Proof.
  apply (fold_mul_ok _ (2 ^ 32 + 977)); [reflexivity|reflexivity|].
  intros h. unfold secp256k1_mulc. rewrite Z.shiftl_mul_pow2; lia.
Qed.
Lemma nist256p1_mul_ok : mul_ok nist256p1_p nist256p1_mul.
Proof.
  apply (fold_mul_ok _ (2 ^ 224 - 2 ^ 192 - 2 ^ 96 + 1)); [reflexivity|reflexivity|].
  intros h. unfold nist256p1_mulc. rewrite !Z.shiftl_mul_pow2; lia.
Qed.
Lemma secp256k1_nmul_ok : mul_ok secp256k1_n secp256k1_nmul.
Proof. apply (fold_mul_ok _ (2 ^ 256 - secp256k1_n)); reflexivity. Qed.

Lemma prime_7 : prime 7.
Proof. apply (trial_prime _ 4%nat); [lia|vm_cast_no_check (eq_refl true)]. Qed.
Lemma prime_29 : prime 29.
Proof. apply (trial_prime _ 7%nat); [lia|vm_cast_no_check (eq_refl true)]. Qed.
Lemma prime_53 : prime 53.
Proof. apply (trial_prime _ 9%nat); [lia|vm_cast_no_check (eq_refl true)]. Qed.
Lemma prime_197 : prime 197.
Proof. apply (trial_prime _ 16%nat); [lia|vm_cast_no_check (eq_refl true)]. Qed.
Lemma prime_1871 : prime 1871.
Proof. apply (trial_prime _ 45%nat); [lia|vm_cast_no_check (eq_refl true)]. Qed.
Lemma prime_3023 : prime 3023.
Proof. apply (trial_prime _ 56%nat); [lia|vm_cast_no_check (eq_refl true)]. Qed.
Lemma prime_3677 : prime 3677.
Proof. apply (trial_prime _ 62%nat); [lia|vm_cast_no_check (eq_refl true)]. Qed.
Lemma prime_9349 : prime 9349.
Proof. apply (trial_prime _ 98%nat); [lia|vm_cast_no_check (eq_refl true)]. Qed.
Lemma prime_20113 : prime 20113.
Proof. apply (trial_prime _ 143%nat); [lia|vm_cast_no_check (eq_refl true)]. Qed.
Lemma prime_28181 : prime 28181.
Proof. apply (trial_prime _ 169%nat); [lia|vm_cast_no_check (eq_refl true)]. Qed.
Lemma prime_78283 : prime 78283.
Proof. apply (trial_prime _ 281%nat); [lia|vm_cast_no_check (eq_refl true)]. Qed.
Lemma prime_96557 : prime 96557.
Proof. apply (trial_prime _ 312%nat); [lia|vm_cast_no_check (eq_refl true)]. Qed.
Lemma prime_104471 : prime 104471.
Proof. apply (trial_prime _ 325%nat); [lia|vm_cast_no_check (eq_refl true)]. Qed.
Lemma prime_120233 : prime 120233.
Proof. apply (trial_prime _ 348%nat); [lia|vm_cast_no_check (eq_refl true)]. Qed.
Lemma prime_155317 : prime 155317.
Proof. apply (trial_prime _ 396%nat); [lia|vm_cast_no_check (eq_refl true)]. Qed.
Lemma prime_704251 : prime 704251.
Proof. apply (trial_prime _ 841%nat); [lia|vm_cast_no_check (eq_refl true)]. Qed.
Lemma prime_1206781 : prime 1206781.
Proof.
  apply (check_prime (barrett 1206781 238842321972 13 45)
    _ 2 [20113]
    (barrett_ok 1206781 _ _ _ ltac:(discriminate))
    (Forall_cons _ prime_20113 (Forall_nil _)) eq_refl).
  vm_cast_no_check (eq_refl true).
Qed.
Lemma prime_1627771 : prime 1627771.
Proof.
  apply (check_prime (barrett 1627771 177070592946 13 45)
    _ 2 [1871]
    (barrett_ok 1627771 _ _ _ ltac:(discriminate))
    (Forall_cons _ prime_1871 (Forall_nil _)) eq_refl).
  vm_cast_no_check (eq_refl true).
Qed.
Lemma prime_3969899 : prime 3969899.
Proof.
  apply (check_prime (barrett 3969899 290415827860 14 46)
    _ 2 [104471]
    (barrett_ok 3969899 _ _ _ ltac:(discriminate))
    (Forall_cons _ prime_104471 (Forall_nil _)) eq_refl).
  vm_cast_no_check (eq_refl true).
Qed.
Lemma prime_7240687 : prime 7240687.
Proof.
  apply (check_prime (barrett 7240687 636912770629 15 47)
    _ 2 [1206781]
    (barrett_ok 7240687 _ _ _ ltac:(discriminate))
    (Forall_cons _ prime_1206781 (Forall_nil _)) eq_refl).
  vm_cast_no_check (eq_refl true).
Qed.
Lemma prime_44706919 : prime 44706919.
Proof.
  apply (check_prime (barrett 44706919 6601839531356 18 50)
    _ 2 [9349]
    (barrett_ok 44706919 _ _ _ ltac:(discriminate))
    (Forall_cons _ prime_9349 (Forall_nil _)) eq_refl).
  vm_cast_no_check (eq_refl true).
Qed.
Lemma prime_107590001 : prime 107590001.
Proof.
  apply (check_prime (barrett 107590001 10973060783942 19 51)
    _ 2 [53; 29; 7]
    (barrett_ok 107590001 _ _ _ ltac:(discriminate))
    (Forall_cons _ prime_53 (Forall_cons _ prime_29 (Forall_cons _ prime_7 (Forall_nil _)))) eq_refl).
  vm_cast_no_check (eq_refl true).
Qed.
Lemma prime_191039911 : prime 191039911.
Proof.
  apply (check_prime (barrett 191039911 24719266556136 20 52)
    _ 2 [155317]
    (barrett_ok 191039911 _ _ _ ltac:(discriminate))
    (Forall_cons _ prime_155317 (Forall_nil _)) eq_refl).
  vm_cast_no_check (eq_refl true).
Qed.
Lemma prime_545358713 : prime 545358713.
Proof.
  apply (check_prime (barrett 545358713 138547091895301 22 54)
    _ 2 [28181]
    (barrett_ok 545358713 _ _ _ ltac:(discriminate))
    (Forall_cons _ prime_28181 (Forall_nil _)) eq_refl).
  vm_cast_no_check (eq_refl true).
Qed.
Lemma prime_66417393611 : prime 66417393611.
Proof.
  apply (check_prime (barrett 66417393611 4659698205472615 28 60)
    _ 2 [3677; 197]
    (barrett_ok 66417393611 _ _ _ ltac:(discriminate))
    (Forall_cons _ prime_3677 (Forall_cons _ prime_197 (Forall_nil _))) eq_refl).
  vm_cast_no_check (eq_refl true).
Qed.
Lemma prime_297159362677 : prime 297159362677.
Proof.
  apply (check_prime (barrett 297159362677 66654607312829387 31 63)
    _ 2 [1627771]
    (barrett_ok 297159362677 _ _ _ ltac:(discriminate))
    (Forall_cons _ prime_1627771 (Forall_nil _)) eq_refl).
  vm_cast_no_check (eq_refl true).
Qed.
Lemma prime_1002328039319 : prime 1002328039319.
Proof.
  apply (check_prime (barrett 1002328039319 79044144637611255 32 64)
    _ 2 [3969899]
    (barrett_ok 1002328039319 _ _ _ ltac:(discriminate))
    (Forall_cons _ prime_3969899 (Forall_nil _)) eq_refl).
  vm_cast_no_check (eq_refl true).
Qed.
Lemma prime_11290956913871 : prime 11290956913871.
Proof.
  apply (check_prime (barrett 11290956913871 1796341068198978198 36 68)
    _ 2 [66417393611]
    (barrett_ok 11290956913871 _ _ _ ltac:(discriminate))
    (Forall_cons _ prime_66417393611 (Forall_nil _)) eq_refl).
  vm_cast_no_check (eq_refl true).
Qed.
Lemma prime_46076956964474543 : prime 46076956964474543.
Proof.
  apply (check_prime (barrett 46076956964474543 7385087673721532393239 48 80)
    _ 2 [704251; 78283]
    (barrett_ok 46076956964474543 _ _ _ ltac:(discriminate))
    (Forall_cons _ prime_704251 (Forall_cons _ prime_78283 (Forall_nil _))) eq_refl).
  vm_cast_no_check (eq_refl true).
Qed.
Lemma prime_208150935158385979 : prime 208150935158385979.
Proof.
  apply (check_prime (barrett 208150935158385979 26156586164708695199561 50 82)
    _ 2 [191039911; 3023]
    (barrett_ok 208150935158385979 _ _ _ ltac:(discriminate))
    (Forall_cons _ prime_191039911 (Forall_cons _ prime_3023 (Forall_nil _))) eq_refl).
  vm_cast_no_check (eq_refl true).
Qed.
Lemma prime_174723607534414371449 : prime 174723607534414371449.
Proof.
  apply (check_prime (barrett 174723607534414371449 32674409894492192448849298 60 92)
    _ 2 [44706919; 120233]
    (barrett_ok 174723607534414371449 _ _ _ ltac:(discriminate))
    (Forall_cons _ prime_44706919 (Forall_cons _ prime_120233 (Forall_nil _))) eq_refl).
  vm_cast_no_check (eq_refl true).
Qed.
Lemma prime_2624747550333869278416773953 : prime 2624747550333869278416773953.
Proof.
  apply (check_prime (barrett 2624747550333869278416773953 612225752550787943514668340690449 84 116)
    _ 2 [208150935158385979]
    (barrett_ok 2624747550333869278416773953 _ _ _ ltac:(discriminate))
    (Forall_cons _ prime_208150935158385979 (Forall_nil _)) eq_refl).
  vm_cast_no_check (eq_refl true).
Qed.
Lemma prime_29047611873442575647497758179 : prime 29047611873442575647497758179.
Proof.
  apply (check_prime (barrett 29047611873442575647497758179 3540533221135566770035043045792661 87 119)
    _ 2 [297159362677; 545358713]
    (barrett_ok 29047611873442575647497758179 _ _ _ ltac:(discriminate))
    (Forall_cons _ prime_297159362677 (Forall_cons _ prime_545358713 (Forall_nil _))) eq_refl).
  vm_cast_no_check (eq_refl true).
Qed.
Lemma prime_341948486974166000522343609283189 : prime 341948486974166000522343609283189.
Proof.
  apply (check_prime (barrett 341948486974166000522343609283189 80734339933628500147197070674225216589 101 133)
    _ 2 [29047611873442575647497758179]
    (barrett_ok 341948486974166000522343609283189 _ _ _ ltac:(discriminate))
    (Forall_cons _ prime_29047611873442575647497758179 (Forall_nil _)) eq_refl).
  vm_cast_no_check (eq_refl true).
Qed.
Lemma prime_255515944373312847190720520512484175977 : prime 255515944373312847190720520512484175977.
Proof.
  apply (check_prime (barrett 255515944373312847190720520512484175977 29698930839203371798887988715764244730347520 120 152)
    _ 2 [107590001; 7240687; 96557]
    (barrett_ok 255515944373312847190720520512484175977 _ _ _ ltac:(discriminate))
    (Forall_cons _ prime_107590001 (Forall_cons _ prime_7240687 (Forall_cons _ prime_96557 (Forall_nil _)))) eq_refl).
  vm_cast_no_check (eq_refl true).
Qed.
Lemma prime_774023187263532362759620327192479577272145303 : prime 774023187263532362759620327192479577272145303.
Proof.
  apply (check_prime (barrett 774023187263532362759620327192479577272145303 172474406376671364913105277733891272110321669252031 142 174)
    _ 2 [46076956964474543; 11290956913871]
    (barrett_ok 774023187263532362759620327192479577272145303 _ _ _ ltac:(discriminate))
    (Forall_cons _ prime_46076956964474543 (Forall_cons _ prime_11290956913871 (Forall_nil _))) eq_refl).
  vm_cast_no_check (eq_refl true).
Qed.
Lemma prime_835945042244614951780389953367877943453916927241 : prime 835945042244614951780389953367877943453916927241.
Proof.
  apply (check_prime (barrett 835945042244614951780389953367877943453916927241 167456039945207919569559518245456272726252458016112640 152 184)
    _ 2 [774023187263532362759620327192479577272145303]
    (barrett_ok 835945042244614951780389953367877943453916927241 _ _ _ ltac:(discriminate))
    (Forall_cons _ prime_774023187263532362759620327192479577272145303 (Forall_nil _)) eq_refl).
  vm_cast_no_check (eq_refl true).
Qed.
Lemma prime_205115282021455665897114700593932402728804164701536103180137503955397371 : prime 205115282021455665897114700593932402728804164701536103180137503955397371.
Proof.
  apply (check_prime (barrett 205115282021455665897114700593932402728804164701536103180137503955397371 15584750604731610601640972995537403849874419756750283835573833999471082776707 229 261)
    _ 2 [255515944373312847190720520512484175977]
    (barrett_ok 205115282021455665897114700593932402728804164701536103180137503955397371 _ _ _ ltac:(discriminate))
    (Forall_cons _ prime_255515944373312847190720520512484175977 (Forall_nil _)) eq_refl).
  vm_cast_no_check (eq_refl true).
Qed.
Lemma nist256p1_n_prime : prime nist256p1_n.
Proof.
  apply (check_prime (barrett 115792089210356248762697446949407573529996955224135760342422259061068512044369 7588550362023601248057532403016887258494246469322010941476547670867365287574791905 248 280)
    _ 2 [2624747550333869278416773953; 1002328039319]
    (barrett_ok 115792089210356248762697446949407573529996955224135760342422259061068512044369 _ _ _ ltac:(discriminate))
    (Forall_cons _ prime_2624747550333869278416773953 (Forall_cons _ prime_1002328039319 (Forall_nil _))) eq_refl).
  vm_cast_no_check (eq_refl true).
Qed.
Lemma nist256p1_p_prime : prime nist256p1_p.
Proof.
  apply (check_prime nist256p1_mul
    _ 2 [835945042244614951780389953367877943453916927241]
    nist256p1_mul_ok
    (Forall_cons _ prime_835945042244614951780389953367877943453916927241 (Forall_nil _)) eq_refl).
  vm_cast_no_check (eq_refl true).
Qed.
Lemma secp256k1_n_prime : prime secp256k1_n.
Proof.
  apply (check_prime secp256k1_nmul
    _ 2 [341948486974166000522343609283189; 174723607534414371449]
    secp256k1_nmul_ok
    (Forall_cons _ prime_341948486974166000522343609283189 (Forall_cons _ prime_174723607534414371449 (Forall_nil _))) eq_refl).
  vm_cast_no_check (eq_refl true).
Qed.
Lemma secp256k1_p_prime : prime secp256k1_p.
Proof.
  apply (check_prime secp256k1_mul
    _ 2 [205115282021455665897114700593932402728804164701536103180137503955397371]
    secp256k1_mul_ok
    (Forall_cons _ prime_205115282021455665897114700593932402728804164701536103180137503955397371 (Forall_nil _)) eq_refl).
  vm_cast_no_check (eq_refl true).
Qed.
