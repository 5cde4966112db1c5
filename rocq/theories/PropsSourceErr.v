(** C114: the texts of the Display functions of bip0039's errors, of its word counts and of bip0032's error kinds
    are what the program text says, run by the evaluator of C111. *)
From Verif Require Import Base Str Error32 Mnemonic39 RustSyntax RustEval MnemonicProofs RustSource RustSourceErr RustExec.
From Verif Require SourceProofs SourcePath.
From Coq Require Import List.
Import ListNotations.
Local Open Scope string_scope.
Local Open Scope N_scope.
Local Open Scope list_scope.

Definition error_items : list item := Eval vm_compute in SourceProofs.items (parse error39_rs).
Definition kind_items : list item := Eval vm_compute in SourceProofs.items (parse kind_rs).

Theorem C114_source_read :
  parse error39_rs = Some error_items /\ error_items <> [] /\
  parse kind_rs = Some kind_items /\ kind_items <> [].
Proof. split; [vm_compute; reflexivity|split; [discriminate|split; [vm_compute; reflexivity|discriminate]]]. Qed.
Print Assumptions C114_source_read.

Lemma error_run B F d e s :
  run B error_items F (S d) "Error" "fmt" [SourceProofs.err_value e; VStr s]
  = inl (ok VUnit, [SourceProofs.err_value e; VStr (s ++ err39_display e)]).
Proof.
  destruct e; unfold SourceProofs.err_value, err39_display.
  - etransitivity; [runs error_items fail|]. rewrite ?app_nil_r. reflexivity.
  - etransitivity; [runs error_items fail|]. rewrite ?app_nil_r. reflexivity.
  - etransitivity; [runs error_items fail|]. rewrite ?app_nil_r. reflexivity.
  - etransitivity; [runs error_items fail|]. rewrite ?app_nil_r. reflexivity.
Qed.

Lemma kind_run B F d k s :
  run B kind_items F (S d) "ErrorKind" "fmt" [VCon "ErrorKind" (SourcePath.kind_string k) []; VStr s]
  = inl (ok VUnit, [VCon "ErrorKind" (SourcePath.kind_string k) []; VStr (s ++ kind_name k)]).
Proof. destruct k; unfold SourcePath.kind_string, kind_name; runs kind_items fail. Qed.

Lemma count_run B F d c s : valid_build B ->
  run B SourceProofs.prog F (S (S d)) "Count" "fmt" [VCon "Count" (SourceProofs.count_name c) []; VStr s]
  = inl (ok VUnit, [VCon "Count" (SourceProofs.count_name c) []; VStr (s ++ count_display c)]).
Proof.
  intros HB. unfold count_display.
  etransitivity;
    [runs SourceProofs.prog ltac:(idtac; first [apply SourceProofs.word_count_run | apply SourceProofs.entropy_bit_length_run
                                      | apply SourceProofs.checksum_bit_length_run])|].
  rewrite ?app_nil_r. reflexivity.
Qed.

(** The values of the program that stand for an error, a kind of error and a word count. *)
Definition error_in (e : err39) : value :=
  match e with
  | BadWordCount n => VCon "Error" "BadWordCount" [VInt Usize n]
  | BadEntropyBitCount n => VCon "Error" "BadEntropyBitCount" [VInt Usize n]
  | UnknownWord w => VCon "Error" "UnknownWord" [VStr w]
  | InvalidChecksum => VCon "Error" "InvalidChecksum" []
  end.
Definition kind_in (k : ErrorKind) : value :=
  VCon "ErrorKind"
    match k with
    | InvalidPath => "InvalidPath" | InvalidPayload => "InvalidPayload" | InvalidVersion => "InvalidVersion"
    | InvalidKeyData => "InvalidKeyData" | InvalidDerivation => "InvalidDerivation"
    end [].
Definition count_in (c : Count) : value :=
  VCon "Count"
    match c with
    | Words12 => "Words12" | Words15 => "Words15" | Words18 => "Words18" | Words21 => "Words21" | Words24 => "Words24"
    end [].
Definition rust_ok (v : value) : value := VCon "Result" "Ok" [v].

(** Display succeeds, leaves its receiver as it was and appends the text of the model to the formatter. *)
Theorem C114_display B F D s : valid_build B -> (2 <= D)%nat ->
  (forall p, parse error39_rs = Some p -> forall e,
     run B p F D "Error" "fmt" [error_in e; VStr s] = inl (rust_ok VUnit, [error_in e; VStr (s ++ err39_display e)])) /\
  (forall p, parse kind_rs = Some p -> forall k,
     run B p F D "ErrorKind" "fmt" [kind_in k; VStr s] = inl (rust_ok VUnit, [kind_in k; VStr (s ++ kind_name k)])) /\
  (forall p, parse count_rs = Some p -> forall c,
     run B (SourceProofs.bit_accumulator_items ++ p ++ SourceProofs.entropy_items ++ SourceProofs.phrase_items) F D
       "Count" "fmt" [count_in c; VStr s] = inl (rust_ok VUnit, [count_in c; VStr (s ++ count_display c)])).
Proof.
  intros HB HD. destruct D as [|[|d]]; [inversion HD|inversion HD; inversion H0|].
  split; [|split].
  - intros p E e. destruct C114_source_read as [E' _]. rewrite E' in E. injection E as <-. apply error_run.
  - intros p E k. destruct C114_source_read as [_ [_ [E' _]]]. rewrite E' in E. injection E as <-. apply kind_run.
  - intros p E c.
    assert (E' : parse count_rs = Some SourceProofs.count_items) by (vm_compute; reflexivity).
    rewrite E' in E. injection E as <-. exact (count_run B F d c s HB).
Qed.
Print Assumptions C114_display.

(** The texts themselves. *)
Theorem C114_texts :
  (forall n, err39_display (BadWordCount n) = lit "BIP-0039 mnemonic only supports 12/15/18/21/24 words: " ++ dec n) /\
  (forall n, err39_display (BadEntropyBitCount n)
     = lit "entropy was not between 128-256 bits or not a multiple of 32 bits: " ++ dec n ++ lit " bits") /\
  (forall w, err39_display (UnknownWord w) = lit "mnemonic contains an unknown word: " ++ w) /\
  err39_display InvalidChecksum = lit "mnemonic has an invalid checksum" /\
  map count_display [Words12; Words15; Words18; Words21; Words24]
  = [lit "12 words (entropy 128 bits + checksum 4 bits)"; lit "15 words (entropy 160 bits + checksum 5 bits)";
     lit "18 words (entropy 192 bits + checksum 6 bits)"; lit "21 words (entropy 224 bits + checksum 7 bits)";
     lit "24 words (entropy 256 bits + checksum 8 bits)"].
Proof. repeat split; vm_compute; reflexivity. Qed.
Print Assumptions C114_texts.

Example C114_case :
  let B := {| b_debug := true; b_usize_bits := 64 |} in
  valid_build B /\
  run B error_items 5 2 "Error" "fmt" [error_in (BadWordCount 13); VStr (lit "error: ")]
  = inl (rust_ok VUnit, [error_in (BadWordCount 13);
      VStr (lit "error: BIP-0039 mnemonic only supports 12/15/18/21/24 words: 13")]).
Proof. split; [right; reflexivity|vm_compute; reflexivity]. Qed.
