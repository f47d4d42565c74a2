(** C96: which lanes scryptROMix cannot tell apart. *)
From Coq Require Import ZArith NArith List Arith Lia Bool ZifyBool ZifyNat ZifyN.
From Verif Require Import Rust.
From Verif.Model Require Import Scrypt.
From Verif.Leak Require Ops Scrypt.
From Verif.Spec Require Octets Pbkdf2 Salsa20 Scrypt Toggle.
From Verif.Proofs Require Base Toggle Scrypt Pbkdf2.
From Verif.Props Require Scrypt Leak.
Import ListNotations.
Import Spec.Octets Spec.Toggle.
Import Props.Scrypt (admissible, sizes_ok).
Local Open Scope N_scope.

(** A vector of 2 r blocks of 64 octets. *)
Definition vector (r : N) (b : list (list N)) : Prop :=
  N.of_nat (length b) = 2 * r /\ Forall (fun x => length x = 64%nat /\ octets x) b.
(** The table of [n] vectors and a vector of blocks can be allocated. *)
Definition room (T : target) (r n : N) : Prop :=
  128 * r <= isize_max T /\ vec_size T * n <= isize_max T.

Lemma vector_vec r b : vector r b -> Proofs.Scrypt.vec (N.to_nat r) b.
Proof. intros [L F]. split; [lia|exact F]. Qed.
Lemma room_mixes T r n p : admissible r n p -> room T r n -> Proofs.Toggle.mixes T (scrypt_new r n p).
Proof.
  intros (Hr & Hk & Hp) [R1 R2]. split; [split; assumption|]. split; [exact Hk|]. split; [|exact R2].
  cbn. pose proof (Base.isize_usize T). pose proof (Props.Scrypt.vec_size_ge T). nia.
Qed.

(** Toggling blocks of the input changes neither the result of [block_mix] nor that of
    [ro_mix]. *)
Theorem C96_block_mix_blind : forall T s b ds, 1 <= sr s -> 128 * sr s <= isize_max T -> vector (sr s) b ->
  block_mix T s (toggle ds b) = block_mix T s b.
Proof.
  intros T s b ds H1 H2 Hb. apply Proofs.Toggle.block_mix_like;
    [split; assumption|apply vector_vec, Hb|apply Proofs.Toggle.toggle_likes].
Qed.
Print Assumptions C96_block_mix_blind.

Theorem C96_ro_mix_blind : forall T r n p b ds, admissible r n p -> room T r n -> vector r b ->
  ro_mix T (scrypt_new r n p) (toggle ds b) = ro_mix T (scrypt_new r n p) b.
Proof.
  intros T r n p b ds Ha Hm Hb. apply Proofs.Toggle.ro_mix_like;
    [apply room_mixes; assumption|apply vector_vec, Hb|apply Proofs.Toggle.toggle_likes].
Qed.
Print Assumptions C96_ro_mix_blind.

(** So every vector shares its result with 4^r - 1 others. *)
Theorem C96_many_share : forall T r n p b, admissible r n p -> room T r n -> vector r b ->
  let class := map (fun ds => toggle ds b) (choices (2 * N.to_nat r)) in
  NoDup class /\ N.of_nat (length class) = 4 ^ r /\ In b class /\
  Forall (fun b' => vector r b' /\ ro_mix T (scrypt_new r n p) b' = ro_mix T (scrypt_new r n p) b) class.
Proof.
  intros T r n p b Ha Hm Hb class. pose proof (vector_vec r b Hb) as Vb. pose proof Vb as [L F].
  repeat apply conj.
  - apply Proofs.Count.NoDup_map; [apply Proofs.Toggle.choices_NoDup|]. intros ds ds' Hd Hd'.
    apply Proofs.Toggle.choices_In in Hd, Hd'. apply Proofs.Toggle.toggle_inj; [exact F|lia|lia].
  - unfold class. rewrite map_length, Proofs.Toggle.choices_length.
    change 4 with (2 ^ 2). rewrite <- N.pow_mul_r. f_equal. lia.
  - apply in_map_iff. exists (repeat false (2 * N.to_nat r)). split.
    + clear. generalize (2 * N.to_nat r)%nat. induction b as [|x b IH]; intros [|k]; try reflexivity.
      cbn [repeat toggle]. rewrite IH. reflexivity.
    + apply Proofs.Toggle.choices_In, repeat_length.
  - apply Forall_forall. intros b' Hb'. apply in_map_iff in Hb'. destruct Hb' as (ds & <- & _).
    split; [|apply C96_ro_mix_blind; assumption].
    destruct (Proofs.Toggle.toggle_vec (N.to_nat r) ds b Vb) as [L' F']. split; [lia|exact F'].
Qed.
Print Assumptions C96_many_share.

(** And at most one result in 4^r is reached. *)
Theorem C96_few_results : forall T r n p L, admissible r n p -> room T r n ->
  NoDup L -> Forall (fun y => exists b, vector r b /\ ro_mix T (scrypt_new r n p) b = Ret y) L ->
  N.of_nat (length L) * 4 ^ r <= 256 ^ (128 * r).
Proof.
  intros T r n p L Ha Hm HL HF.
  assert (H : N.of_nat (length (map Ret L)) * 2 ^ N.of_nat (2 * N.to_nat r) <= 256 ^ N.of_nat (128 * N.to_nat r)).
  { apply (Proofs.Toggle.values_count (N.to_nat r) (ro_mix T (scrypt_new r n p))).
    - intros b b' Hb Hl. apply Proofs.Toggle.ro_mix_like; [apply room_mixes; assumption|exact Hb|exact Hl].
    - apply Proofs.Count.NoDup_map; [exact HL|]. intros x y _ _ E. injection E. auto.
    - apply Forall_map. eapply Forall_impl; [|exact HF]. intros y (b & Hb & E). exists b. split; [apply vector_vec, Hb|exact E]. }
  rewrite map_length in H.
  replace (N.of_nat (2 * N.to_nat r)) with (2 * r) in H by lia.
  replace (N.of_nat (128 * N.to_nat r)) with (128 * r) in H by lia.
  rewrite N.pow_mul_r in H. exact H.
Qed.
Print Assumptions C96_few_results.

(** The lane of zeros is not mixed at all, and the 4^r lanes that toggling makes of it are
    mixed to zeros. *)
Theorem C96_zero_lane : forall T r n p ds, admissible r n p -> room T r n ->
  let z := repeat (repeat 0 64) (2 * N.to_nat r) in
  ro_mix T (scrypt_new r n p) (toggle ds z) = Ret z.
Proof.
  intros T r n p ds Ha Hm z.
  assert (Hz : vector r z).
  { split; [unfold z; rewrite repeat_length; lia|]. apply (Proofs.Toggle.zeros_vec (N.to_nat r)). }
  rewrite C96_ro_mix_blind by assumption. apply (Proofs.Toggle.ro_mix_zeros T (scrypt_new r n p)). apply room_mixes; assumption.
Qed.
Print Assumptions C96_zero_lane.

(** Two salts whose lanes differ in toggled blocks only give the same key, and the same
    record to an observer. *)
Theorem C96_derivations_collide : forall T r n p P S S' out, admissible r n p ->
  octets P -> octets S -> octets S' -> length S = length S' -> sizes_ok T r n p P S out ->
  lanes_toggled (N.to_nat r) (unmixed P S (N.to_nat r) (N.to_nat p)) (unmixed P S' (N.to_nat r) (N.to_nat p)) ->
  scrypt_derive T (scrypt_new r n p) P S' out = scrypt_derive T (scrypt_new r n p) P S out /\
  Leak.Ops.visible (Leak.Scrypt.scrypt_derive T (scrypt_new r n p) P S' out) =
  Leak.Ops.visible (Leak.Scrypt.scrypt_derive T (scrypt_new r n p) P S out).
Proof.
  intros T r n p P S S' out Ha HP HS HS' L Hs H.
  assert (Hs' : sizes_ok T r n p P S' out) by (unfold sizes_ok in *; rewrite <- L; exact Hs).
  assert (R : (1 <= N.to_nat r)%nat /\ 1 <= n).
  { destruct Ha as (Hr & [k ->] & _). pose proof (N.pow_nonzero 2 k). lia. }
  destruct (Proofs.Toggle.lanes_like P S S' n (N.to_nat r) (N.to_nat p) (proj1 R) (proj2 R) H) as [E I]. split.
  - rewrite !Props.Scrypt.C20_scrypt_conforms by assumption. unfold Spec.Scrypt.scrypt. cbv zeta. rewrite E. reflexivity.
  - apply Props.Leak.C61_scrypt_leaks_exactly_indices; auto.
Qed.
Print Assumptions C96_derivations_collide.

(** "Different lanes are mixed to different lanes" is false, whatever the lane. *)
Theorem C96_injective_refuted : forall T r n p b, admissible r n p -> room T r n -> vector r b ->
  exists b', b' <> b /\ vector r b' /\ ro_mix T (scrypt_new r n p) b' = ro_mix T (scrypt_new r n p) b.
Proof.
  intros T r n p b Ha Hm Hb. exists (toggle [true] b). pose proof (vector_vec r b Hb) as Vb.
  destruct (Proofs.Toggle.toggle_vec (N.to_nat r) [true] b Vb) as [L' F'].
  split; [|split; [split; [lia|exact F']|apply C96_ro_mix_blind; assumption]].
  destruct Ha as (Hr & _). destruct Vb as [L F]. destruct b as [|x b]; [cbn in L; lia|].
  inversion F; subst. cbn [toggle]. intros E. injection E. apply Proofs.Toggle.flip_neq. assumption.
Qed.
Print Assumptions C96_injective_refuted.

(** r = 1, n = 2: both blocks toggled, on the program. *)
Definition lane_a : list (list N) := [map N.of_nat (seq 0 64); map N.of_nat (seq 64 64)].
Definition lane_b : list (list N) := toggle [true; true] lane_a.
Definition same_mix : bool :=
  let T := mkTarget W64 true in
  match ro_mix T (scrypt_new 1 2 1) lane_a, ro_mix T (scrypt_new 1 2 1) lane_b with
  | Ret y, Ret y' => (le_num (concat y) =? le_num (concat y')) && negb (le_num (concat y) =? le_num (concat lane_a))
  | _, _ => false
  end.
Example C96_example :
  admissible 1 2 1 /\ room (mkTarget W64 true) 1 2 /\ vector 1 lane_a /\ vector 1 lane_b /\
  firstn 4 (concat lane_a) = [0; 1; 2; 3] /\ firstn 4 (concat lane_b) = [0; 1; 2; 131] /\
  same_mix = true.
Proof.
  assert (O : forall l, forallb (fun b => b <? 256) l = true -> octets l).
  { intros l H. rewrite forallb_forall in H. apply Forall_forall. intros x Hx. apply N.ltb_lt, H, Hx. }
  split; [split; [lia|split; [exists 1; reflexivity|lia]]|].
  split; [split; vm_compute; discriminate|].
  split; [split; [reflexivity|apply Forall_cons; [|apply Forall_cons; [|apply Forall_nil]]; (split; [reflexivity|]); apply O; vm_compute; reflexivity]|].
  split; [split; [reflexivity|apply Forall_cons; [|apply Forall_cons; [|apply Forall_nil]]; (split; [reflexivity|]); apply O; vm_compute; reflexivity]|].
  split; [reflexivity|]. split; [vm_compute; reflexivity|]. vm_compute. reflexivity.
Qed.
