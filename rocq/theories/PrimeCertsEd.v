(** Pocklington certificates, generated. *)
From Coq Require Import ZArith Znumtheory List Lia.
From Verif Require Import Primes.
Import ListNotations.
Open Scope Z_scope.

(** The field prime of edwards25519 and the order of its base point (RFC 8032, 5.1). *)
Definition ed25519_p : Z := 0x7FFFFFFFFFFFFFFFFFFFFFFFFFFFFFFFFFFFFFFFFFFFFFFFFFFFFFFFFFFFFFED.
Definition ed25519_l : Z := 0x1000000000000000000000000000000014DEF9DEA2F79CD65812631A5CF5D3ED.
Definition ed25519_mul : Z -> Z -> Z := fold_mul 2 255 (Z.mul 19).
Lemma ed25519_mul_ok : mul_ok ed25519_p ed25519_mul.
Proof. apply (fold_mul_ok _ 19); reflexivity. Qed.

Lemma prime_103 : prime 103.
Proof. apply (trial_prime _ 12%nat); [lia|vm_cast_no_check (eq_refl true)]. Qed.
Lemma prime_127 : prime 127.
Proof. apply (trial_prime _ 13%nat); [lia|vm_cast_no_check (eq_refl true)]. Qed.
Lemma prime_991 : prime 991.
Proof. apply (trial_prime _ 33%nat); [lia|vm_cast_no_check (eq_refl true)]. Qed.
Lemma prime_2551 : prime 2551.
Proof. apply (trial_prime _ 52%nat); [lia|vm_cast_no_check (eq_refl true)]. Qed.
Lemma prime_4153 : prime 4153.
Proof. apply (trial_prime _ 66%nat); [lia|vm_cast_no_check (eq_refl true)]. Qed.
Lemma prime_430751 : prime 430751.
Proof. apply (trial_prime _ 658%nat); [lia|vm_cast_no_check (eq_refl true)]. Qed.
Lemma prime_531581 : prime 531581.
Proof. apply (trial_prime _ 731%nat); [lia|vm_cast_no_check (eq_refl true)]. Qed.
Lemma prime_569003 : prime 569003.
Proof. apply (trial_prime _ 756%nat); [lia|vm_cast_no_check (eq_refl true)]. Qed.
Lemma prime_1224481 : prime 1224481.
Proof.
  apply (check_prime (barrett 1224481 235389831407 13 45)
    _ 2 [2551]
    (barrett_ok 1224481 _ _ _ ltac:(discriminate))
    (Forall_cons _ prime_2551 (Forall_nil _)) eq_refl).
  vm_cast_no_check (eq_refl true).
Qed.
Lemma prime_8574133 : prime 8574133.
Proof.
  apply (check_prime (barrett 8574133 2151441326336 16 48)
    _ 2 [991; 103]
    (barrett_ok 8574133 _ _ _ ltac:(discriminate))
    (Forall_cons _ prime_991 (Forall_cons _ prime_103 (Forall_nil _))) eq_refl).
  vm_cast_no_check (eq_refl true).
Qed.
Lemma prime_2773320623 : prime 2773320623.
Proof.
  apply (check_prime (barrett 2773320623 435912750076077 24 56)
    _ 2 [569003]
    (barrett_ok 2773320623 _ _ _ ltac:(discriminate))
    (Forall_cons _ prime_569003 (Forall_nil _)) eq_refl).
  vm_cast_no_check (eq_refl true).
Qed.
Lemma prime_72106336199 : prime 72106336199.
Proof.
  apply (check_prime (barrett 72106336199 17168256002758167 29 61)
    _ 2 [2773320623]
    (barrett_ok 72106336199 _ _ _ ltac:(discriminate))
    (Forall_cons _ prime_2773320623 (Forall_nil _)) eq_refl).
  vm_cast_no_check (eq_refl true).
Qed.
Lemma prime_1257559732178653 : prime 1257559732178653.
Proof.
  apply (check_prime (barrett 1257559732178653 264247486972666807635 43 75)
    _ 2 [1224481; 531581]
    (barrett_ok 1257559732178653 _ _ _ ltac:(discriminate))
    (Forall_cons _ prime_1224481 (Forall_cons _ prime_531581 (Forall_nil _))) eq_refl).
  vm_cast_no_check (eq_refl true).
Qed.
Lemma prime_1919519569386763 : prime 1919519569386763.
Proof.
  apply (check_prime (barrett 1919519569386763 173119880748281448642 43 75)
    _ 2 [8574133; 127]
    (barrett_ok 1919519569386763 _ _ _ ltac:(discriminate))
    (Forall_cons _ prime_8574133 (Forall_cons _ prime_127 (Forall_nil _))) eq_refl).
  vm_cast_no_check (eq_refl true).
Qed.
Lemma prime_31757755568855353 : prime 31757755568855353.
Proof.
  apply (check_prime (barrett 31757755568855353 2678734381772962966971 47 79)
    _ 2 [430751; 4153]
    (barrett_ok 31757755568855353 _ _ _ ltac:(discriminate))
    (Forall_cons _ prime_430751 (Forall_cons _ prime_4153 (Forall_nil _))) eq_refl).
  vm_cast_no_check (eq_refl true).
Qed.
Lemma prime_4434155615661930479 : prime 4434155615661930479.
Proof.
  apply (check_prime (barrett 4434155615661930479 314331903459842394124868 54 86)
    _ 2 [1257559732178653]
    (barrett_ok 4434155615661930479 _ _ _ ltac:(discriminate))
    (Forall_cons _ prime_1257559732178653 (Forall_nil _)) eq_refl).
  vm_cast_no_check (eq_refl true).
Qed.
Lemma prime_172054593956031949258510691 : prime 172054593956031949258510691.
Proof.
  apply (check_prime (barrett 172054593956031949258510691 36483197519217509783973113632176 80 112)
    _ 2 [4434155615661930479]
    (barrett_ok 172054593956031949258510691 _ _ _ ltac:(discriminate))
    (Forall_cons _ prime_4434155615661930479 (Forall_nil _)) eq_refl).
  vm_cast_no_check (eq_refl true).
Qed.
Lemma prime_75445702479781427272750846543864801 : prime 75445702479781427272750846543864801.
Proof.
  apply (check_prime (barrett 75445702479781427272750846543864801 5995210246792797545536191186206309108398 108 140)
    _ 2 [1919519569386763; 72106336199]
    (barrett_ok 75445702479781427272750846543864801 _ _ _ ltac:(discriminate))
    (Forall_cons _ prime_1919519569386763 (Forall_cons _ prime_72106336199 (Forall_nil _))) eq_refl).
  vm_cast_no_check (eq_refl true).
Qed.
Lemma prime_19757330305831588566944191468367130476339 : prime 19757330305831588566944191468367130476339.
Proof.
  apply (check_prime (barrett 19757330305831588566944191468367130476339 1573223800709414227146361131753206376164495471 126 158)
    _ 2 [172054593956031949258510691]
    (barrett_ok 19757330305831588566944191468367130476339 _ _ _ ltac:(discriminate))
    (Forall_cons _ prime_172054593956031949258510691 (Forall_nil _)) eq_refl).
  vm_cast_no_check (eq_refl true).
Qed.
Lemma prime_276602624281642239937218680557139826668747 : prime 276602624281642239937218680557139826668747.
Proof.
  apply (check_prime (barrett 276602624281642239937218680557139826668747 28767520927257860153533460694915773735579241766 130 162)
    _ 2 [19757330305831588566944191468367130476339]
    (barrett_ok 276602624281642239937218680557139826668747 _ _ _ ltac:(discriminate))
    (Forall_cons _ prime_19757330305831588566944191468367130476339 (Forall_nil _)) eq_refl).
  vm_cast_no_check (eq_refl true).
Qed.
Lemma prime_74058212732561358302231226437062788676166966415465897661863160754340907 : prime 74058212732561358302231226437062788676166966415465897661863160754340907.
Proof.
  apply (check_prime (barrett 74058212732561358302231226437062788676166966415465897661863160754340907 10791073662104756617440288963834273051619977509039620149820151174588465676291 228 260)
    _ 2 [75445702479781427272750846543864801; 31757755568855353]
    (barrett_ok 74058212732561358302231226437062788676166966415465897661863160754340907 _ _ _ ltac:(discriminate))
    (Forall_cons _ prime_75445702479781427272750846543864801 (Forall_cons _ prime_31757755568855353 (Forall_nil _))) eq_refl).
  vm_cast_no_check (eq_refl true).
Qed.
Lemma ed25519_l_prime : prime 7237005577332262213973186563042994240857116359379907606001950938285454250989.
Proof.
  apply (check_prime (barrett 7237005577332262213973186563042994240857116359379907606001950938285454250989 1897137590064188545819787018382342682260702946610423502977170686005395312870190310 245 277)
    _ 2 [276602624281642239937218680557139826668747]
    (barrett_ok 7237005577332262213973186563042994240857116359379907606001950938285454250989 _ _ _ ltac:(discriminate))
    (Forall_cons _ prime_276602624281642239937218680557139826668747 (Forall_nil _)) eq_refl).
  vm_cast_no_check (eq_refl true).
Qed.
Lemma ed25519_p_prime : prime 57896044618658097711785492504343953926634992332820282019728792003956564819949.
Proof.
  apply (check_prime ed25519_mul
    _ 2 [74058212732561358302231226437062788676166966415465897661863160754340907]
    ed25519_mul_ok
    (Forall_cons _ prime_74058212732561358302231226437062788676166966415465897661863160754340907 (Forall_nil _)) eq_refl).
  vm_cast_no_check (eq_refl true).
Qed.
