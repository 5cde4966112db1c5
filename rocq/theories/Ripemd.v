(** RIPEMD-160, used for key fingerprints (bip0032/src/xkey/core/mod.rs 42,
    the ripemd crate).  Written from the published specification. *)
From Verif Require Import Base.

Definition m32 : N := 0xFFFFFFFF.
Definition add32 (a b : N) : N := N.land (a + b) m32.
Definition rol32 (s x : N) : N :=
  N.lor (N.land (N.shiftl x s) m32) (N.shiftr x (32 - s)).
Definition not32 (x : N) : N := N.lxor x m32.

Definition rf (j : nat) (x y z : N) : N :=
  match j with
  | 0%nat => N.lxor x (N.lxor y z)
  | 1%nat => N.lor (N.land x y) (N.land (not32 x) z)
  | 2%nat => N.lxor (N.lor x (not32 y)) z
  | 3%nat => N.lor (N.land x z) (N.land y (not32 z))
  | _ => N.lxor x (N.lor y (not32 z))
  end.

Definition KL : list N := [0; 0x5A827999; 0x6ED9EBA1; 0x8F1BBCDC; 0xA953FD4E].
Definition KR : list N := [0x50A28BE6; 0x5C4DD124; 0x6D703EF3; 0x7A6D76E9; 0].

Definition RL : list (list nat) :=
  [[0;1;2;3;4;5;6;7;8;9;10;11;12;13;14;15];
   [7;4;13;1;10;6;15;3;12;0;9;5;2;14;11;8];
   [3;10;14;4;9;15;8;1;2;7;0;6;13;11;5;12];
   [1;9;11;10;0;8;12;4;13;3;7;15;14;5;6;2];
   [4;0;5;9;7;12;2;10;14;1;3;8;11;6;15;13]]%nat.
Definition RR : list (list nat) :=
  [[5;14;7;0;9;2;11;4;13;6;15;8;1;10;3;12];
   [6;11;3;7;0;13;5;10;14;15;8;12;4;9;1;2];
   [15;5;1;3;7;14;6;9;11;8;12;2;10;0;4;13];
   [8;6;4;1;3;11;15;0;5;12;2;13;9;7;10;14];
   [12;15;10;4;1;5;8;7;6;2;13;14;0;3;9;11]]%nat.
Definition SL : list (list N) :=
  [[11;14;15;12;5;8;7;9;11;13;14;15;6;7;9;8];
   [7;6;8;13;11;9;7;15;7;12;15;9;11;7;13;12];
   [11;13;6;7;14;9;13;15;14;8;13;6;5;12;7;5];
   [11;12;14;15;14;15;9;8;9;14;5;6;8;6;5;12];
   [9;15;5;11;6;8;13;12;5;12;13;14;11;8;5;6]].
Definition SR : list (list N) :=
  [[8;9;9;11;13;15;15;5;7;7;8;11;14;14;12;6];
   [9;13;15;7;12;8;9;11;7;7;12;7;6;15;13;11];
   [9;7;15;11;8;6;6;14;12;13;5;14;13;13;7;5];
   [15;5;8;11;14;14;6;14;6;9;12;9;12;5;15;8];
   [8;5;12;9;12;5;14;6;8;13;6;5;15;13;11;11]].

Definition st5 : Type := N * N * N * N * N.

Definition rstep (f : nat) (k : N) (x : list N) (s : st5) (ri : nat * N) : st5 :=
  let '(a, b, c, d, e) := s in
  let t := add32 (rol32 (snd ri)
             (add32 (add32 a (rf f b c d)) (add32 (nth (fst ri) x 0) k))) e in
  (e, t, b, rol32 10 c, d).

Definition rline (fs : list nat) (ks : list N) (rs : list (list nat)) (ss : list (list N))
    (x : list N) (s : st5) : st5 :=
  fold_left (fun s p =>
      let '(f, k, r, sh) := p in fold_left (rstep f k x) (combine r sh) s)
    (combine (combine (combine fs ks) rs) ss) s.

Definition rcompress (h : st5) (x : list N) : st5 :=
  let '(a, b, c, d, e) := rline [0;1;2;3;4]%nat KL RL SL x h in
  let '(a', b', c', d', e') := rline [4;3;2;1;0]%nat KR RR SR x h in
  let '(h0, h1, h2, h3, h4) := h in
  (add32 h1 (add32 c d'), add32 h2 (add32 d e'), add32 h3 (add32 e a'),
   add32 h4 (add32 a b'), add32 h0 (add32 b c')).

Definition le_word (l : list byte) : N := be_val (rev l).
Definition le_out (n : N) : list byte := rev (be_bytes 4 n).

Fixpoint rchunks {A : Type} (fuel k : nat) (l : list A) : list (list A) :=
  match fuel, l with
  | S f, _ :: _ => firstn k l :: rchunks f k (skipn k l)
  | _, _ => []
  end.

Definition rpad (m : list byte) : list byte :=
  let len := length m in
  let z := ((119 - Nat.modulo len 64) mod 64)%nat in
  m ++ [x80] ++ repeat x00 z ++ rev (be_bytes 8 (8 * N.of_nat len)).

Definition ripemd160 (m : list byte) : list byte :=
  let p := rpad m in
  let '(a, b, c, d, e) :=
    fold_left (fun h blk => rcompress h (map le_word (rchunks 16 4 blk)))
      (rchunks (length p) 64 p)
      (0x67452301, 0xEFCDAB89, 0x98BADCFE, 0x10325476, 0xC3D2E1F0) in
  le_out a ++ le_out b ++ le_out c ++ le_out d ++ le_out e.

Lemma ripemd160_length m : length (ripemd160 m) = 20%nat.
Proof.
  unfold ripemd160. destruct (fold_left _ _ _) as [[[[a b] c] d] e].
  unfold le_out. rewrite !app_length, !rev_length, !be_bytes_length. reflexivity.
Qed.
