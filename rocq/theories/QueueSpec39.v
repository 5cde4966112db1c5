(** Specification of the bit accumulator (a queue of bits) and of PBKDF2. *)
From Verif Require Import Base Sha2 Spec39.

(** Operations on a bit queue; [run_queue] returns the values taken and the final
    queue, or [None] when an operation is not allowed: more than 56 bits at once,
    more than 64 buffered bits, taking more than is there, or taking nothing
    from a full queue (see [C20_take_zero_refuted]). *)
Inductive bit_op : Type :=
| Push (v : N) (n : nat)
| Take (n : nat).

Fixpoint run_queue (q : list bool) (ops : list bit_op) : option (list N * list bool) :=
  match ops with
  | [] => Some ([], q)
  | Push v n :: ops' =>
      if ((n <=? 56) && (length q + n <=? 64))%nat then run_queue (q ++ bits_msb n v) ops' else None
  | Take n :: ops' =>
      if ((n <=? 56) && (n <=? length q) && (length q - n <? 64))%nat then
        match run_queue (skipn n q) ops' with
        | Some (vs, q') => Some (bits_val (firstn n q) :: vs, q')
        | None => None
        end
      else None
  end.

(** RFC 8018, PBKDF2 with 64-byte PRF and one block: U_1 = PRF (P, S || INT (1)),
    U_{k+1} = PRF (P, U_k), result U_1 xor ... xor U_c, here byte by byte. *)
Fixpoint pbkdf2_U (prf : list byte -> list byte) (first : list byte) (k : nat) : list byte :=
  match k with
  | O => prf first
  | S k' => prf (pbkdf2_U prf first k')
  end.

Definition is_pbkdf2_block (prf : list byte -> list byte) (salt : list byte) (c : N) (dk : list byte) : Prop :=
  length dk = 64%nat /\
  forall j, (j < 64)%nat ->
    b2n (nth j dk x00) =
    fold_right N.lxor 0
      (map (fun k => b2n (nth j (pbkdf2_U prf (salt ++ [x00; x00; x00; x01]) k) x00)) (seq 0 (N.to_nat c))).
