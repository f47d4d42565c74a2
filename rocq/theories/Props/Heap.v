(** C89: the memory of scrypt. *)
From Coq Require Import ZArith NArith List Arith Lia Bool ZifyBool ZifyNat ZifyN.
From Verif Require Import Rust.
From Verif.Spec Require Import Heap.
From Verif.Spec Require Octets.
From Verif.Model Require Import Scrypt.
From Verif.Heap Require Ops Scrypt.
From Verif.Proofs Require Import Base.
From Verif.Proofs Require Heap.
From Verif.Props Require Import Scrypt.
Import ListNotations.
Import Spec.Octets.
Local Open Scope N_scope.

(** The recorded program computes what the model computes. *)
Theorem C89_same_results : forall reuse T s P S out,
  Ops.outcome (Heap.Scrypt.scrypt_derive reuse T s P S out) = scrypt_derive T s P S out.
Proof. intros. apply Heap.scrypt_derive_er. Qed.
Print Assumptions C89_same_results.

(** Rejected parameters: no request at all. *)
Theorem C89_rejected_takes_nothing : forall reuse T s P S out e out',
  scrypt_derive T s P S out = Ret (Err e, out') ->
  Ops.trace (Heap.Scrypt.scrypt_derive reuse T s P S out) = [].
Proof.
  intros reuse T s P S out e out' H. apply (Heap.rejected_takes_nothing _ _ _ _ _ _ e out').
  rewrite C89_same_results. exact H.
Qed.
Print Assumptions C89_rejected_takes_nothing.

(** Bytes of [2r] blocks in a vector, with [w] bytes for a [Vec]. *)
Local Notation lane w r := (2 * r * (64 + w))%N.

(** The exact highest level, from the first request to the end of the mixing:
    the [p] lanes twice (as bytes and as blocks), the table of [n] lanes, two
    lanes more, and what [block_mix] needs beside its result. *)
Theorem C89_highest : forall reuse T r n p P S out, let w := vec_size T in
  admissible r n p -> octets P -> octets S -> sizes_ok T r n p P S out ->
  let t := Ops.trace (Heap.Scrypt.scrypt_derive reuse T (scrypt_new r n p) P S out) in
  highest t (Z.of_N (p * (128 * r + w + lane w r) + (if reuse then 0 else p * w)
                     + n * (w + lane w r) + 2 * lane w r + 64 + N.max 64 (3 * r * w))) /\
  level t = Z.of_N (p * (128 * r + w + lane w r)).
Proof.
  intros reuse T r n p P S out w Ha HP HS (H1 & H2 & H3 & H4 & H5) t.
  destruct (Heap.derive_uses reuse T (scrypt_new r n p) P S out) as (a & _ & Hl & Ht & _).
  - apply admissible_accepted; assumption.
  - cbn. pose proof (isize_usize T). pose proof (vec_size_ge T). nia.
  - exact H3.
  - exact H4.
  - exact HP.
  - exact HS.
  - split; assumption.
  - exact H5.
  - fold t in Hl, Ht. split.
    + match goal with |- highest _ ?h => replace h with (Heap.top t) end.
      * apply Heap.top_highest.
      * rewrite Ht. unfold Heap.derive_top, Heap.ro_top, Heap.mix_top, Heap.lane_bytes.
        cbn [scrypt_new sr sn sp]. fold w.
        replace (Z.max 64 (3 * Z.of_N r * Z.of_N w)) with (Z.of_N (N.max 64 (3 * r * w))) by lia.
        generalize (N.max 64 (3 * r * w)); intros u.
        destruct reuse; repeat rewrite ?N2Z.inj_add, ?N2Z.inj_mul; cbn [Z.of_N]; ring.
    + rewrite Hl. unfold Heap.lane_bytes. cbn [scrypt_new sr sn sp]. fold w.
      repeat rewrite ?N2Z.inj_add, ?N2Z.inj_mul; cbn [Z.of_N]; ring.
Qed.
Print Assumptions C89_highest.

(** More lanes cost the same whatever [n]: they are mixed one after the other, with
    one table. *)
Theorem C89_lanes_share_the_table : forall reuse T r n p q P S out h h', let w := vec_size T in
  admissible r n p -> q <= p -> 1 <= q -> octets P -> octets S -> sizes_ok T r n p P S out ->
  highest (Ops.trace (Heap.Scrypt.scrypt_derive reuse T (scrypt_new r n p) P S out)) h ->
  highest (Ops.trace (Heap.Scrypt.scrypt_derive reuse T (scrypt_new r n q) P S out)) h' ->
  h = (h' + Z.of_N ((p - q) * (128 * r + lane w r + w + if reuse then 0 else w)))%Z.
Proof.
  intros reuse T r n p q P S out h h' w Ha Hq Hq1 HP HS Hs Hh Hh'.
  destruct (C89_highest reuse T r n p P S out Ha HP HS Hs) as [E _].
  destruct Ha as (Hr & Hn & Hp). destruct Hs as (H1 & H2 & H3 & H4 & H5).
  assert (q * 128 * r <= p * 128 * r) by nia.
  destruct (C89_highest reuse T r n q P S out) as [E' _]; try assumption.
  - split; [|split]; assumption.
  - split; [assumption|]. split; [assumption|]. split; [lia|]. split; assumption.
  - rewrite (Heap.highest_unique _ _ _ Hh E), (Heap.highest_unique _ _ _ Hh' E'). fold w.
    replace p with (q + (p - q)) at 1 2 by lia. destruct reuse; nia.
Qed.
Print Assumptions C89_lanes_share_the_table.

(** The memory is often given as 128 * r * N bytes.  It always exceeds this by the
    headers of the blocks in the table: by three eighths on 64-bit targets. *)
Theorem C89_textbook_size_refuted : forall reuse r n p P S out h ov, let T := mkTarget W64 ov in
  admissible r n p -> octets P -> octets S -> sizes_ok T r n p P S out ->
  highest (Ops.trace (Heap.Scrypt.scrypt_derive reuse T (scrypt_new r n p) P S out)) h ->
  (8 * h > 11 * Z.of_N (128 * r * n))%Z.
Proof.
  intros reuse r n p P S out h ov T Ha HP HS Hs Hh.
  destruct (C89_highest reuse T r n p P S out Ha HP HS Hs) as [E _].
  rewrite (Heap.highest_unique _ _ _ Hh E). clear E Hh.
  change (vec_size T) with 24. destruct reuse; lia.
Qed.
Print Assumptions C89_textbook_size_refuted.

Example C89_example :
  let T := mkTarget W64 false in
  let t := Ops.trace (Heap.Scrypt.scrypt_derive true T (scrypt_new 1 2 1) [112; 119] [115] (repeat 0 4)) in
  admissible 1 2 1 /\ sizes_ok T 1 2 1 [112; 119] [115] (repeat 0 4) /\
  (length t, firstn 4 t, Heap.top t, level t) =
  (83%nat, [Take 128; Take 24; Take 48; Take 64],
   (128 + 24 + 176 + 2 * (24 + 176) + 2 * 176 + 64 + 72)%Z, 328%Z).
Proof.
  split; [split; [lia|split; [exists 1; reflexivity|lia]]|].
  split; [split; [|split; [|split; [|split]]]; vm_compute; (reflexivity || discriminate)|].
  vm_compute. reflexivity.
Qed.
