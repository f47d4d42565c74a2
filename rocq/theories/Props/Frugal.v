(** C94: scrypt with less memory. *)
From Coq Require Import ZArith NArith List Arith Lia Bool ZifyBool ZifyNat ZifyN.
From Verif Require Import Rust.
From Verif.Model Require Import Scrypt.
From Verif.Leak Require Ops Scrypt.
From Verif.Spec Require Octets Pbkdf2 Scrypt Frugal.
From Verif.Proofs Require Frugal Scrypt Pbkdf2.
From Verif.Props Require Scrypt Leak.
Import ListNotations.
Import Spec.Octets Spec.Frugal.
Import Props.Scrypt (admissible, sizes_ok).
Local Open Scope N_scope.

Lemma admissible_pos r n p : admissible r n p -> 1 <= n.
Proof. intros (_ & [k ->] & _). pose proof (N.pow_nonzero 2 k). lia. Qed.

(** A table of every [k]-th entry does. *)
Theorem C94_smaller_table_same_key : forall k T r n p P S out, 1 <= k ->
  admissible r n p -> octets P -> octets S -> sizes_ok T r n p P S out ->
  scrypt_derive T (scrypt_new r n p) P S out =
  Ret (Ok tt, frugal_scrypt k P S n (N.to_nat r) (N.to_nat p) (length out)).
Proof.
  intros k T r n p P S out Hk Ha HP HS Hs. rewrite Props.Scrypt.C20_scrypt_conforms by assumption.
  rewrite Proofs.Frugal.frugal_scrypt_ok by (try assumption; apply (admissible_pos r n p Ha)). reflexivity.
Qed.
Print Assumptions C94_smaller_table_same_key.

(** What it takes for one lane: n / k entries, rounded up, and for the positions j that are
    read the sum of j mod k more mixings than the 2 n of the program. *)
Theorem C94_memory_and_work : forall k P S n r p i, 1 <= k -> 1 <= n -> (1 <= r)%nat -> (i < p)%nat ->
  let l := nth i (lanes k P S n r p) (mkLane [] 0 0) in
  N.of_nat (entries l) = (n + k - 1) / k /\
  mixings l = 2 * n + sum (map (fun j => j mod k) (nth i (Spec.Scrypt.scrypt_indices P S n r p) [])) /\
  2 * n <= mixings l <= n * (k + 1).
Proof.
  intros k P S n r p i Hk Hn Hr Hi l.
  assert (L : length (blocks (128 * r) (Spec.Pbkdf2.pbkdf2 P S 1 (p * 128 * r))) = p).
  { rewrite Base.blocks_length, Proofs.Pbkdf2.pbkdf2_length. rewrite <- Nat.mul_assoc. apply Nat.div_mul. lia. }
  set (f := fun Bi => frugal_ROMix r k Bi n) in *.
  assert (E : l = f (nth i (blocks (128 * r) (Spec.Pbkdf2.pbkdf2 P S 1 (p * 128 * r))) [])).
  { unfold l, lanes. fold f. rewrite (nth_indep _ _ (f [])) by (rewrite map_length; lia). apply map_nth. }
  assert (E' : nth i (Spec.Scrypt.scrypt_indices P S n r p) [] =
               Spec.Scrypt.ROMix_indices r (nth i (blocks (128 * r) (Spec.Pbkdf2.pbkdf2 P S 1 (p * 128 * r))) []) n).
  { unfold Spec.Scrypt.scrypt_indices. set (g := fun Bi => Spec.Scrypt.ROMix_indices r Bi n).
    rewrite (nth_indep _ _ (g [])) by (rewrite map_length; lia). apply (map_nth g). }
  rewrite E', E. unfold f. rewrite Proofs.Frugal.frugal_ROMix_ok by assumption. cbn [entries mixings].
  pose proof (Proofs.Frugal.indices_bound r k (nth i (blocks (128 * r) (Spec.Pbkdf2.pbkdf2 P S 1 (p * 128 * r))) []) n Hk) as U.
  split; [apply N2Nat.id|]. split; [reflexivity|]. nia.
Qed.
Print Assumptions C94_memory_and_work.

(** "Deriving a key takes a table that grows with n" is false: one entry is enough, and half
    the table costs at most half as much again. *)
Theorem C94_table_is_needed_refuted : forall T r n p P S out,
  admissible r n p -> octets P -> octets S -> sizes_ok T r n p P S out ->
  (exists k, scrypt_derive T (scrypt_new r n p) P S out =
             Ret (Ok tt, frugal_scrypt k P S n (N.to_nat r) (N.to_nat p) (length out)) /\
    Forall (fun l => entries l = 1%nat /\ mixings l <= n * (n + 1)) (lanes k P S n (N.to_nat r) (N.to_nat p))) /\
  (exists k, scrypt_derive T (scrypt_new r n p) P S out =
             Ret (Ok tt, frugal_scrypt k P S n (N.to_nat r) (N.to_nat p) (length out)) /\
    Forall (fun l => N.of_nat (entries l) = (n + 1) / 2 /\ 2 * mixings l <= 3 * (2 * n)) (lanes k P S n (N.to_nat r) (N.to_nat p))).
Proof.
  intros T r n p P S out Ha HP HS Hs. pose proof (admissible_pos r n p Ha) as Hn.
  split; [exists n|exists 2]; (split; [apply C94_smaller_table_same_key; (assumption || lia)|]); apply Forall_forall; intros l Hl;
    unfold lanes in Hl; apply in_map_iff in Hl; destruct Hl as (B & <- & _);
    rewrite Proofs.Frugal.frugal_ROMix_ok by lia; cbn [entries mixings].
  - pose proof (Proofs.Frugal.indices_bound (N.to_nat r) n B n Hn) as U. split; [|nia].
    replace ((n + n - 1) / n) with 1; [reflexivity|]. apply (N.div_unique _ _ _ (n - 1)); lia.
  - pose proof (Proofs.Frugal.indices_bound (N.to_nat r) 2 B n ltac:(lia)) as U. split; [|lia].
    rewrite N2Nat.id. f_equal. lia.
Qed.
Print Assumptions C94_table_is_needed_refuted.

(** Who has seen the record of a derivation can sort out passphrases without any table, with n
    mixings each: the first position must agree. *)
Theorem C94_record_sorts_out_passphrases : forall T r n p P P' S out,
  admissible r n p -> octets P -> octets P' -> octets S -> sizes_ok T r n p P S out -> length P = length P' ->
  first_position P S n (N.to_nat r) (N.to_nat p) <> first_position P' S n (N.to_nat r) (N.to_nat p) ->
  Leak.Ops.visible (Leak.Scrypt.scrypt_derive T (scrypt_new r n p) P S out) <>
  Leak.Ops.visible (Leak.Scrypt.scrypt_derive T (scrypt_new r n p) P' S out).
Proof.
  intros T r n p P P' S out Ha HP HP' HS Hs L H V. apply H. clear H.
  apply (Props.Leak.C61_scrypt_leaks_exactly_indices T r n p P P' S S out out Ha HP HP' HS HS Hs L eq_refl eq_refl) in V.
  pose proof (admissible_pos r n p Ha) as Hn. destruct Ha as (Hr & _ & Hp).
  set (R := N.to_nat r) in *. set (Q := N.to_nat p) in *.
  assert (F : forall P, first_position P S n R Q = nth 0 (nth 0 (Spec.Scrypt.scrypt_indices P S n R Q) []) 0).
  { clear - Hn Hr Hp. intros P. unfold first_position, Spec.Scrypt.scrypt_indices.
    set (Bs := blocks (128 * R) (Spec.Pbkdf2.pbkdf2 P S 1 (Q * 128 * R))).
    assert (Lb : (0 < length Bs)%nat).
    { unfold Bs. rewrite Base.blocks_length, Proofs.Pbkdf2.pbkdf2_length, <- Nat.mul_assoc, Nat.div_mul; lia. }
    destruct Bs as [|B Bs]; [inversion Lb|]. cbn [map nth]. unfold Spec.Scrypt.ROMix_indices.
    destruct (N.to_nat n) as [|m] eqn:E; [lia|]. reflexivity. }
  rewrite !F, V. reflexivity.
Qed.
Print Assumptions C94_record_sorts_out_passphrases.

(** n = 4, every third entry: 2 entries; for the block 0, 1, ..., 127 three
    mixings more than the 8 of the program. *)
Example C94_example :
  let T := mkTarget W64 true in
  let P := [112; 119] in let S := [115] in
  admissible 1 8 2 /\ sizes_ok T 1 8 2 P S (repeat 0 20) /\
  scrypt_derive T (scrypt_new 1 8 2) P S (repeat 0 20) = Ret (Ok tt, frugal_scrypt 3 P S 8 1 2 20) /\
  (let l := frugal_ROMix 1 3 (map N.of_nat (seq 0 128)) 4 in (entries l, mixings l)) = (2%nat, 11).
Proof.
  split; [split; [lia|split; [exists 3; reflexivity|lia]]|].
  assert (Z : sizes_ok (mkTarget W64 true) 1 8 2 [112; 119] [115] (repeat 0 20)).
  { split; [|split; [|split; [|split]]]; vm_compute; (reflexivity || discriminate). }
  split; [exact Z|]. split; [|vm_compute; reflexivity].
  apply (C94_smaller_table_same_key 3 (mkTarget W64 true) 1 8 2); [lia| |repeat constructor; lia..|exact Z].
  split; [lia|split; [exists 3; reflexivity|lia]].
Qed.
