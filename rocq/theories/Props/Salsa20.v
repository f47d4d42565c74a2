(** C16-C19: the Salsa20 core. *)
From Coq Require Import NArith List Arith Lia.
From Verif Require Import Rust.
From Verif.Model Require Import Salsa20.
From Verif.Spec Require Octets Salsa20.
From Verif.Proofs Require Import Base Bits Salsa20 Salsa20Perm Salsa20Fixed.
Import Spec.Octets.
Import ListNotations.
Local Open Scope N_scope.

(** C16. The output is x + doubleround^k(x). *)
Theorem C16_salsa20_conforms : forall x k out,
  octets x -> length x = 64%nat -> length out = 64%nat ->
  Model.Salsa20.salsa20 x k out = Ret (Spec.Salsa20.salsa20 k x).
Proof.
  intros x k out Hx Hl Ho.
  rewrite salsa20_ok by (assumption || lia).
  rewrite firstn_all2, skipn_all2, app_nil_r by lia. reflexivity.
Qed.
Print Assumptions C16_salsa20_conforms.

(** The vector of draft-josefsson-scrypt-kdf-03, section 7 (four double rounds);
    also evaluated in the specification. *)
Definition draft_input : list N := be_octets 64
  0x7e879a214f3ec9867ca940e641718f26baee555b8c61c1b50df846116dcd3b1dee24f319df9b3d8514121e4b5ac5aa3276021d2909c74829edebc68db8b8c25e.
Definition draft_output : list N := be_octets 64
  0xa41f859c6608cc993b81cacb020cef05044b2181a2fd337dfd7b1c6396682f29b4393168e3c9e6bcfe6bc5b7a06d96bae424cc102c91745c24ad673dc7618f81.
Example C16_example :
  octets draft_input /\ length draft_input = 64%nat /\
  Model.Salsa20.salsa20 draft_input 4 (repeat 9 64) = Ret draft_output /\
  Spec.Salsa20.salsa20 4 draft_input = draft_output.
Proof.
  split; [apply octets_be_octets|]. split; [reflexivity|]. split; vm_compute; reflexivity.
Qed.

(** C17. It panics exactly on short buffers; otherwise the first 64 bytes of the
    output become a function of the first 64 bytes of the input and everything
    after them stays. *)
Theorem C17_panics_iff_short : forall input k out, octets input ->
  Model.Salsa20.salsa20 input k out = Panic <-> (length input < 64 \/ length out < 64)%nat.
Proof. exact salsa20_panic_iff. Qed.
Print Assumptions C17_panics_iff_short.

Theorem C17_first_block_only : forall input k out, octets input ->
  (64 <= length input)%nat -> (64 <= length out)%nat ->
  exists b, length b = 64%nat /\ octets b /\
    Model.Salsa20.salsa20 (firstn 64 input) k (repeat 0 64) = Ret b /\
    Model.Salsa20.salsa20 input k out = Ret (b ++ skipn 64 out).
Proof. exact salsa20_local. Qed.
Print Assumptions C17_first_block_only.

(** The documented reading "buffers of several blocks are mixed block by block"
    is false: the second block of a 128-byte output is left alone. *)
Theorem C17_all_blocks_mixed_refuted : exists input out b0 b1,
  length input = 128%nat /\ length out = 128%nat /\ octets input /\
  Model.Salsa20.salsa20 (firstn 64 input) 4 (repeat 0 64) = Ret b0 /\
  Model.Salsa20.salsa20 (skipn 64 input) 4 (repeat 0 64) = Ret b1 /\
  Model.Salsa20.salsa20 input 4 out <> Ret (b0 ++ b1) /\
  Model.Salsa20.salsa20 input 4 out = Ret (b0 ++ skipn 64 out).
Proof.
  exists (draft_input ++ draft_input), (repeat 0 128), draft_output, draft_output.
  split; [reflexivity|]. split; [reflexivity|].
  split; [apply octets_app; split; apply octets_be_octets|].
  split; [vm_compute; reflexivity|]. split; [vm_compute; reflexivity|].
  split; [vm_compute; intros H; discriminate H|]. vm_compute. reflexivity.
Qed.
Print Assumptions C17_all_blocks_mixed_refuted.

Example C17_example :
  octets draft_input /\ (64 <= length (draft_input ++ [1%N]))%nat /\
  Model.Salsa20.salsa20 (draft_input ++ [1%N]) 4 (repeat 9 66) = Ret (draft_output ++ [9; 9]) /\
  Model.Salsa20.salsa20 (firstn 63 draft_input) 4 (repeat 9 66) = Panic.
Proof.
  split; [apply octets_be_octets|]. split; [vm_compute; lia|]. split; vm_compute; reflexivity.
Qed.

(** C18. The mixing (everything before the final addition) is a bijection on
    16-word states, for every number of rounds. *)
Definition state16 (x : list N) : Prop := length x = 16%nat /\ Forall (fun w => w < 2 ^ 32) x.

Theorem C18_mixing_total : forall k x, state16 x ->
  exists y, Model.Salsa20.mix k x = Ret y /\ state16 y.
Proof. exact mix_total. Qed.
Print Assumptions C18_mixing_total.

Theorem C18_mixing_injective : forall k x y z, state16 x -> state16 y ->
  Model.Salsa20.mix k x = Ret z -> Model.Salsa20.mix k y = Ret z -> x = y.
Proof. exact mix_injective. Qed.
Print Assumptions C18_mixing_injective.

Theorem C18_mixing_surjective : forall k y, state16 y ->
  exists x, state16 x /\ Model.Salsa20.mix k x = Ret y.
Proof. exact mix_surjective. Qed.
Print Assumptions C18_mixing_surjective.

(** The same seen from outside: output minus input determines the input. *)
Theorem C18_difference_injective : forall k x y outx outy,
  octets x -> octets y -> length x = 64%nat -> length y = 64%nat ->
  Model.Salsa20.salsa20 x k (repeat 0 64) = Ret outx ->
  Model.Salsa20.salsa20 y k (repeat 0 64) = Ret outy ->
  Spec.Salsa20.sub_words (Spec.Salsa20.words outx) (Spec.Salsa20.words x) =
  Spec.Salsa20.sub_words (Spec.Salsa20.words outy) (Spec.Salsa20.words y) -> x = y.
Proof. exact difference_injective. Qed.
Print Assumptions C18_difference_injective.

Example C18_example :
  state16 (Spec.Salsa20.words draft_input) /\
  state16 (map (N.add 1) (repeat 0 16)) /\
  Model.Salsa20.mix 4 (Spec.Salsa20.words draft_input) <>
  Model.Salsa20.mix 4 (map (N.add 1) (repeat 0 16)).
Proof.
  split; [|split].
  - split; [reflexivity|]. apply words_b_spec. vm_compute. reflexivity.
  - split; [reflexivity|]. apply words_b_spec. vm_compute. reflexivity.
  - vm_compute. intros H. discriminate H.
Qed.

(** C19. Flipping the top bit of every word does not change the output. *)
Theorem C19_top_bits_collide : forall k x out,
  octets x -> length x = 64%nat -> (64 <= length out)%nat ->
  Model.Salsa20.salsa20 (Spec.Salsa20.flip_top_bits x) k out = Model.Salsa20.salsa20 x k out /\
  Spec.Salsa20.flip_top_bits x <> x.
Proof. exact model_flip. Qed.
Print Assumptions C19_top_bits_collide.

Theorem C19_injective_refuted : forall k, exists x y out,
  x <> y /\ octets x /\ octets y /\ length x = 64%nat /\ length y = 64%nat /\
  Model.Salsa20.salsa20 x k (repeat 0 64) = Ret out /\
  Model.Salsa20.salsa20 y k (repeat 0 64) = Ret out.
Proof.
  intros k. exists (Spec.Salsa20.flip_top_bits (repeat 0 64)), (repeat 0 64).
  exists (Spec.Salsa20.salsa20 k (repeat 0 64)).
  destruct (model_flip k (repeat 0 64) (repeat 0 64)) as [E Hne];
    [repeat constructor|reflexivity|rewrite repeat_length; lia|].
  split; [exact Hne|]. split; [repeat constructor|]. split; [repeat constructor|].
  split; [reflexivity|]. split; [reflexivity|]. rewrite E.
  split; (apply C16_salsa20_conforms; [repeat constructor|reflexivity|reflexivity]).
Qed.
Print Assumptions C19_injective_refuted.

Example C19_example :
  firstn 8 (Spec.Salsa20.flip_top_bits draft_input) = [0x7e; 0x87; 0x9a; 0xa1; 0x4f; 0x3e; 0xc9; 0x06] /\
  Model.Salsa20.salsa20 (Spec.Salsa20.flip_top_bits draft_input) 4 (repeat 0 64) = Ret draft_output.
Proof. split; vm_compute; reflexivity. Qed.

(** C54.  Refuted: the rounds mix every input.  The 2^32 inputs whose words alternate
    between [a] and [-a] in a chequered pattern are fixed by any number of rounds; the
    output is the input doubled word by word.  In particular zeros give zeros. *)
Theorem C54_chequered_inputs_mixed_refuted : forall k a, a < 2 ^ 32 ->
  Model.Salsa20.mix k (Spec.Salsa20.checkered a) = Ret (Spec.Salsa20.checkered a) /\
  Model.Salsa20.salsa20 (flat_map (le_octets 4) (Spec.Salsa20.checkered a)) k (repeat 0 64)
  = Ret (flat_map (le_octets 4) (Spec.Salsa20.checkered ((a + a) mod 2 ^ 32))).
Proof.
  intros k a Ha. split; [|apply model_checkered; assumption].
  rewrite mix_ok by (apply state_checkered; assumption). rewrite rounds_checkered by assumption. reflexivity.
Qed.
Print Assumptions C54_chequered_inputs_mixed_refuted.

Theorem C54_zero_gives_zero : forall k,
  Model.Salsa20.salsa20 (repeat 0 64) k (repeat 0 64) = Ret (repeat 0 64).
Proof. intros k. exact (model_checkered k 0 eq_refl). Qed.
Print Assumptions C54_zero_gives_zero.

Example C54_example :
  Spec.Salsa20.checkered 1 = [1; 4294967295; 1; 4294967295; 4294967295; 1; 4294967295; 1;
                              1; 4294967295; 1; 4294967295; 4294967295; 1; 4294967295; 1] /\
  Model.Salsa20.mix 4 (Spec.Salsa20.checkered 1) = Ret (Spec.Salsa20.checkered 1) /\
  Model.Salsa20.mix 4 (1 :: repeat 0 15) <> Ret (1 :: repeat 0 15).
Proof. split; [reflexivity|]. split; vm_compute; [reflexivity|discriminate]. Qed.
