(** The model of src/aes.rs computes FIPS-197, and the two directions of the
    specification are inverse to each other. *)
From Coq Require Import ZArith NArith List Arith Lia Bool ZifyBool ZifyNat ZifyN.
From Verif Require Import Rust Calls.
From Verif.Spec Require Import Octets Aes.
From Verif.Spec Require BlockCipher.
From Verif.Model Require Import Aes.
From Verif.Proofs Require Import Base Bits Gf.
Import ListNotations.
Local Open Scope N_scope.
Ltac Zify.zify_post_hook ::= Z.div_mod_to_equations.

(** * Substitution *)

Definition ret_eqb (m : res N) (x : N) : bool :=
  match m with Ret y => y =? x | _ => false end.
Lemma ret_eqb_eq m x : ret_eqb m x = true -> m = Ret x.
Proof. destruct m as [y| |]; cbn; try discriminate. intros H. apply N.eqb_eq in H. subst. reflexivity. Qed.

Lemma Ret_inj {A} (x y : A) : Ret x = Ret y -> x = y.
Proof. intros H. injection H as H. exact H. Qed.

Lemma sbox_ok b : b < 256 -> idx SBOX b = Ret (SubByte b).
Proof.
  intros Hb. apply ret_eqb_eq.
  apply (octet_check (fun b => ret_eqb (idx SBOX b) (SubByte b))); [|assumption].
  vm_compute. reflexivity.
Qed.

Lemma SubByte_lt b : SubByte b < 256.
Proof.
  unfold SubByte. generalize (gf_inv b) as c. intros c.
  unfold num_of_bits. cbn [map fold_left].
  repeat match goal with |- context [if ?x then 1 else 0] => generalize x; intros [|] end;
    vm_compute; reflexivity.
Qed.

Local Opaque SubByte gf_mul.

(** The two tables are inverse permutations. *)
Lemma inv_sbox_sbox b : b < 256 ->
  exists c, idx SBOX b = Ret c /\ c < 256 /\ idx INV_SBOX c = Ret b.
Proof.
  intros Hb.
  assert (H : (match idx SBOX b with
               | Ret c => (c <? 256) && ret_eqb (idx INV_SBOX c) b | _ => false end)%bool = true).
  { apply (octet_check (fun b => match idx SBOX b with
      | Ret c => (c <? 256) && ret_eqb (idx INV_SBOX c) b | _ => false end)%bool); [|assumption].
    vm_compute. reflexivity. }
  destruct (idx SBOX b) as [c| |]; try discriminate. exists c.
  apply andb_true_iff in H. destruct H as [H1 H2]. apply N.ltb_lt in H1.
  apply ret_eqb_eq in H2. auto.
Qed.
Lemma sbox_inv_sbox b : b < 256 ->
  exists c, idx INV_SBOX b = Ret c /\ c < 256 /\ idx SBOX c = Ret b.
Proof.
  intros Hb.
  assert (H : (match idx INV_SBOX b with
               | Ret c => (c <? 256) && ret_eqb (idx SBOX c) b | _ => false end)%bool = true).
  { apply (octet_check (fun b => match idx INV_SBOX b with
      | Ret c => (c <? 256) && ret_eqb (idx SBOX c) b | _ => false end)%bool); [|assumption].
    vm_compute. reflexivity. }
  destruct (idx INV_SBOX b) as [c| |]; try discriminate. exists c.
  apply andb_true_iff in H. destruct H as [H1 H2]. apply N.ltb_lt in H1.
  apply ret_eqb_eq in H2. auto.
Qed.

Lemma SubByte_inj b c : b < 256 -> c < 256 -> SubByte b = SubByte c -> b = c.
Proof.
  intros Hb Hc E.
  destruct (inv_sbox_sbox b Hb) as (x & Ex & _ & Ix).
  destruct (inv_sbox_sbox c Hc) as (y & Ey & _ & Iy).
  rewrite sbox_ok in Ex, Ey by assumption.
  apply Ret_inj in Ex, Ey. rewrite <- Ex, E, Ey in Ix. rewrite Ix in Iy. exact (Ret_inj _ _ Iy).
Qed.

Lemma InvSubByte_spec b c : c < 256 -> SubByte c = b -> InvSubByte b = c.
Proof.
  intros Hc E. unfold InvSubByte.
  destruct (find (fun c => SubByte c =? b) Spec.Aes.all_octets) as [d|] eqn:F.
  - apply find_some in F. destruct F as [Hin Hd]. apply N.eqb_eq in Hd.
    apply SubByte_inj; [|assumption|congruence].
    apply in_map_iff in Hin. destruct Hin as (k & <- & Hk). apply in_seq in Hk. lia.
  - exfalso. assert (Hin : In c Spec.Aes.all_octets) by (apply (in_all_octets c Hc)).
    apply (find_none _ _ F) in Hin. apply N.eqb_neq in Hin. contradiction.
Qed.

Local Opaque InvSubByte.

Lemma inv_sbox_ok b : b < 256 -> idx INV_SBOX b = Ret (InvSubByte b).
Proof.
  intros Hb. destruct (sbox_inv_sbox b Hb) as (c & -> & Hc & E).
  rewrite sbox_ok in E by assumption. apply Ret_inj in E.
  rewrite (InvSubByte_spec b c Hc E). reflexivity.
Qed.
Lemma InvSubByte_lt b : b < 256 -> InvSubByte b < 256.
Proof.
  intros Hb. destruct (sbox_inv_sbox b Hb) as (c & E & Hc & _).
  rewrite inv_sbox_ok in E by assumption. apply Ret_inj in E. rewrite E. assumption.
Qed.
Lemma InvSubByte_SubByte b : b < 256 -> InvSubByte (SubByte b) = b.
Proof. intros Hb. apply InvSubByte_spec; [assumption|reflexivity]. Qed.
Lemma SubByte_InvSubByte b : b < 256 -> SubByte (InvSubByte b) = b.
Proof.
  intros Hb. destruct (sbox_inv_sbox b Hb) as (c & E & Hc & E').
  rewrite inv_sbox_ok in E by assumption. rewrite sbox_ok in E' by assumption.
  apply Ret_inj in E, E'. rewrite E. exact E'.
Qed.

(** * States *)

(** The model's array of columns holding a state. *)
Definition cols (s : state) : Block :=
  map (fun c => map (fun r => entry s r c) [0; 1; 2; 3]%nat) [0; 1; 2; 3]%nat.

Definition wf (s : state) : Prop :=
  s = matrix (entry s) /\ forall r c, entry s r c < 256.

Lemma entry_matrix f r c : (r < 4)%nat -> (c < 4)%nat -> entry (matrix f) r c = f r c.
Proof.
  intros Hr Hc.
  destruct r as [|[|[|[|]]]]; [..|lia]; destruct c as [|[|[|[|]]]]; try lia; reflexivity.
Qed.
Lemma matrix_ext f g :
  (forall r c, (r < 4)%nat -> (c < 4)%nat -> f r c = g r c) -> matrix f = matrix g.
Proof. intros H. unfold matrix. cbn [map]. rewrite !H by lia. reflexivity. Qed.
Lemma entry_matrix_out f r c : ~ ((r < 4)%nat /\ (c < 4)%nat) -> entry (matrix f) r c = 0.
Proof.
  intros H. unfold entry, matrix. cbn [map].
  destruct r as [|[|[|[|r]]]]; cbn [nth]; try (destruct c as [|[|[|[|c]]]]; [lia..|]; destruct c; reflexivity).
  destruct r; destruct c; reflexivity.
Qed.
Lemma matrix_wf f : (forall r c, (r < 4)%nat -> (c < 4)%nat -> f r c < 256) -> wf (matrix f).
Proof.
  intros H. split.
  - apply matrix_ext. intros r c Hr Hc. symmetry. apply entry_matrix; assumption.
  - intros r c. destruct (lt_dec r 4) as [Hr|Hr]; [destruct (lt_dec c 4) as [Hc|Hc]|].
    + rewrite entry_matrix by assumption. apply H; assumption.
    + rewrite entry_matrix_out by tauto. lia.
    + rewrite entry_matrix_out by tauto. lia.
Qed.
Lemma wf_eq s t : wf s -> wf t ->
  (forall r c, (r < 4)%nat -> (c < 4)%nat -> entry s r c = entry t r c) -> s = t.
Proof. intros [Es _] [Et _] H. rewrite Es, Et. apply matrix_ext. exact H. Qed.

Lemma to_block_ok inp : length inp = 16%nat -> to_block inp = Ret (cols (state_of_input inp)).
Proof.
  intros H. do 16 (destruct inp as [|? inp]; [discriminate|]). destruct inp; [|discriminate].
  reflexivity.
Qed.
Lemma from_block_ok s : from_block (cols s) = Ret (output_of_state s).
Proof. reflexivity. Qed.
Lemma state_of_input_wf inp : octets inp -> wf (state_of_input inp).
Proof. intros H. apply matrix_wf. intros r c _ _. apply octets_nth. assumption. Qed.
Lemma output_length s : length (output_of_state s) = 16%nat.
Proof. reflexivity. Qed.
Lemma octets_output s : wf s -> octets (output_of_state s).
Proof.
  intros [_ H]. apply Forall_forall. intros x Hx. apply in_map_iff in Hx.
  destruct Hx as (i & <- & _). apply H.
Qed.
Lemma output_of_input inp : length inp = 16%nat -> output_of_state (state_of_input inp) = inp.
Proof.
  intros H. do 16 (destruct inp as [|? inp]; [discriminate|]). destruct inp; [|discriminate].
  reflexivity.
Qed.
Lemma input_of_output s : wf s -> state_of_input (output_of_state s) = s.
Proof.
  intros [-> _]. generalize (entry s) as f. intros f. reflexivity.
Qed.

(** * Transformations *)

Lemma SubBytes_wf s : wf (SubBytes s).
Proof. apply matrix_wf. intros. apply SubByte_lt. Qed.
Lemma InvSubBytes_wf s : wf s -> wf (InvSubBytes s).
Proof. intros [_ H]. apply matrix_wf. intros. apply InvSubByte_lt. apply H. Qed.
Lemma ShiftRows_wf s : wf s -> wf (ShiftRows s).
Proof. intros [_ H]. apply matrix_wf. intros. apply H. Qed.
Lemma InvShiftRows_wf s : wf s -> wf (InvShiftRows s).
Proof. intros [_ H]. apply matrix_wf. intros. apply H. Qed.
Lemma mix_with_wf row s : wf (mix_with row s).
Proof.
  apply matrix_wf. intros. cbn [map fold_right].
  repeat apply lxor_lt256; try apply gf_mul_lt. lia.
Qed.

Lemma sub_bytes_ok s : wf s -> sub_bytes enc_lookup_sbox (cols s) = Ret (cols (SubBytes s)).
Proof.
  intros [_ H]. unfold sub_bytes, enc_lookup_sbox, cols. cbn [map map_res].
  rewrite !sbox_ok by apply H. cbn [bind]. unfold SubBytes.
  rewrite !entry_matrix by lia. reflexivity.
Qed.
Lemma inv_sub_bytes_ok s : wf s -> sub_bytes dec_lookup_sbox (cols s) = Ret (cols (InvSubBytes s)).
Proof.
  intros [_ H]. unfold sub_bytes, dec_lookup_sbox, cols. cbn [map map_res].
  rewrite !inv_sbox_ok by apply H. cbn [bind]. unfold InvSubBytes.
  rewrite !entry_matrix by lia. reflexivity.
Qed.
Lemma shift_rows_ok s : enc_shift_rows (cols s) = Ret (cols (ShiftRows s)).
Proof. unfold cols, ShiftRows. cbn [map]. rewrite !entry_matrix by lia. reflexivity. Qed.
Lemma inv_shift_rows_ok s : dec_shift_rows (cols s) = Ret (cols (InvShiftRows s)).
Proof. unfold cols, InvShiftRows. cbn [map]. rewrite !entry_matrix by lia. reflexivity. Qed.

(** An entry of a mixed column. *)
Lemma mix_entry k0 k1 k2 k3 s c r :
  (c < 4)%nat -> (r < 4)%nat -> wf s ->
  In k0 multipliers -> In k1 multipliers -> In k2 multipliers -> In k3 multipliers ->
  entry (mix_with [k0; k1; k2; k3] s) r c =
  circ k0 k1 k2 k3 (entry s r c) (entry s ((r + 1) mod 4) c)
    (entry s ((r + 2) mod 4) c) (entry s ((r + 3) mod 4) c).
Proof.
  intros Hc Hr [_ Hs] H0 H1 H2 H3. unfold mix_with. rewrite entry_matrix by assumption.
  unfold circ. cbn [map fold_right].
  destruct r as [|[|[|[|]]]]; [..|lia]; cbn [Nat.add Nat.sub Nat.modulo Nat.divmod nth fst snd];
    rewrite (gf_mul_comm k0), (gf_mul_comm k1), (gf_mul_comm k2), (gf_mul_comm k3) by auto;
    rewrite N.lxor_0_r;
    generalize (gf_mul (entry s 0 c)) (gf_mul (entry s 1 c)) (gf_mul (entry s 2 c)) (gf_mul (entry s 3 c));
    intros f0 f1 f2 f3; apply N.bits_inj; intros k; rewrite !N.lxor_spec; Btauto.btauto.
Qed.

Ltac in_mult := unfold multipliers; cbn; tauto.

Lemma mix_columns_ok s : wf s -> mix_columns enc_mix_column (cols s) = Ret (cols (MixColumns s)).
Proof.
  intros Hs. pose proof Hs as [_ H]. unfold mix_columns, cols. cbn [map map_res enc_mix_column].
  rewrite !mul_ok by apply H. cbn [bind]. unfold MixColumns.
  rewrite !mix_entry by (lia || assumption || in_mult).
  cbn [Nat.add Nat.modulo Nat.divmod fst snd Nat.sub]. unfold circ.
  rewrite !gf_mul_1 by apply H. rewrite !N.lxor_assoc. reflexivity.
Qed.
Lemma inv_mix_columns_ok s : wf s ->
  mix_columns dec_mix_column (cols s) = Ret (cols (InvMixColumns s)).
Proof.
  intros Hs. pose proof Hs as [_ H]. unfold mix_columns, cols. cbn [map map_res dec_mix_column].
  unfold dec_mix_byte. rewrite !mul_ok by apply H. cbn [bind]. unfold InvMixColumns.
  rewrite !mix_entry by (lia || assumption || in_mult).
  cbn [Nat.add Nat.modulo Nat.divmod fst snd Nat.sub]. unfold circ.
  rewrite !N.lxor_assoc. reflexivity.
Qed.

(** * Inverse pairs *)

Lemma InvSubBytes_SubBytes s : wf s -> InvSubBytes (SubBytes s) = s.
Proof.
  intros Hs. apply wf_eq; [apply InvSubBytes_wf, SubBytes_wf|assumption|].
  intros r c Hr Hc. unfold InvSubBytes, SubBytes. rewrite !entry_matrix by assumption.
  apply InvSubByte_SubByte. apply Hs.
Qed.
Lemma SubBytes_InvSubBytes s : wf s -> SubBytes (InvSubBytes s) = s.
Proof.
  intros Hs. apply wf_eq; [apply SubBytes_wf|assumption|].
  intros r c Hr Hc. unfold InvSubBytes, SubBytes. rewrite !entry_matrix by assumption.
  apply SubByte_InvSubByte. apply Hs.
Qed.
Lemma InvShiftRows_ShiftRows s : wf s -> InvShiftRows (ShiftRows s) = s.
Proof.
  intros Hs. apply wf_eq; [apply InvShiftRows_wf, ShiftRows_wf; assumption|assumption|].
  intros r c Hr Hc. unfold InvShiftRows, ShiftRows.
  rewrite !entry_matrix by (try assumption; apply Nat.mod_upper_bound; lia).
  f_equal. destruct r as [|[|[|[|]]]]; [..|lia]; destruct c as [|[|[|[|]]]]; try lia; reflexivity.
Qed.
Lemma ShiftRows_InvShiftRows s : wf s -> ShiftRows (InvShiftRows s) = s.
Proof.
  intros Hs. apply wf_eq; [apply ShiftRows_wf, InvShiftRows_wf; assumption|assumption|].
  intros r c Hr Hc. unfold InvShiftRows, ShiftRows.
  rewrite !entry_matrix by (try assumption; apply Nat.mod_upper_bound; lia).
  f_equal. destruct r as [|[|[|[|]]]]; [..|lia]; destruct c as [|[|[|[|]]]]; try lia; reflexivity.
Qed.

Lemma mix_inverse j0 j1 j2 j3 k0 k1 k2 k3 s :
  In j0 multipliers -> In j1 multipliers -> In j2 multipliers -> In j3 multipliers ->
  In k0 multipliers -> In k1 multipliers -> In k2 multipliers -> In k3 multipliers ->
  inverse_rows j0 j1 j2 j3 k0 k1 k2 k3 = true -> wf s ->
  mix_with [j0; j1; j2; j3] (mix_with [k0; k1; k2; k3] s) = s.
Proof.
  intros J0 J1 J2 J3 K0 K1 K2 K3 Hinv Hs.
  apply wf_eq; [apply mix_with_wf|assumption|].
  intros r c Hr Hc.
  rewrite mix_entry by (assumption || apply mix_with_wf).
  rewrite !mix_entry by (try assumption; apply Nat.mod_upper_bound; lia).
  pose proof Hs as [_ H].
  destruct r as [|[|[|[|]]]]; [..|lia];
    cbn [Nat.add Nat.modulo Nat.divmod fst snd Nat.sub]; apply circ_inverse; auto.
Qed.
Lemma InvMixColumns_MixColumns s : wf s -> InvMixColumns (MixColumns s) = s.
Proof. apply mix_inverse; [in_mult..|exact inv_mix_mix]. Qed.
Lemma MixColumns_InvMixColumns s : wf s -> MixColumns (InvMixColumns s) = s.
Proof. apply mix_inverse; [in_mult..|exact mix_inv_mix]. Qed.

(** * Round keys *)

Definition word_ok (w : list N) : Prop := length w = 4%nat /\ octets w.

Lemma AddRoundKey_wf w round s : Forall word_ok w -> wf s -> wf (AddRoundKey w round s).
Proof.
  intros Hw [_ Hs]. apply matrix_wf. intros r c _ _. apply lxor_lt256; [apply Hs|].
  apply octets_nth. destruct (lt_dec (round * 4 + c) (length w)) as [Hi|Hi].
  - apply (proj1 (Forall_forall _ _) Hw). apply nth_In. assumption.
  - rewrite nth_overflow by lia. constructor.
Qed.
Lemma AddRoundKey_twice w round s : wf s -> AddRoundKey w round (AddRoundKey w round s) = s.
Proof.
  intros [-> Hs]. unfold AddRoundKey. apply matrix_ext. intros r c Hr Hc.
  rewrite !entry_matrix by assumption.
  rewrite N.lxor_assoc, N.lxor_nilpotent, N.lxor_0_r. reflexivity.
Qed.

Lemma land_255 x : as_u8 (N.land x 0xff) = as_u8 x.
Proof.
  unfold as_u8. change 0xff with (N.ones 8). rewrite N.land_ones. change (2 ^ 8) with 256.
  apply N.mod_mod. lia.
Qed.

Lemma add_round_key_col_ok c0 c1 c2 c3 w : word_ok w ->
  add_round_key_col [c0; c1; c2; c3] (be_num w) =
  Ret [N.lxor c0 (nth 0 w 0); N.lxor c1 (nth 1 w 0); N.lxor c2 (nth 2 w 0); N.lxor c3 (nth 3 w 0)].
Proof.
  intros [Hl Ho]. pose proof (be_octets_be_num w Ho) as E. rewrite Hl, be_octets_4 in E.
  unfold add_round_key_col. rewrite !land_255.
  destruct w as [|w0 [|w1 [|w2 [|w3 [|]]]]]; try discriminate. cbn [nth].
  revert E. generalize (be_num [w0; w1; w2; w3]) as n. intros n E.
  pose proof (f_equal (fun l => nth 0 l 0) E) as E0. pose proof (f_equal (fun l => nth 1 l 0) E) as E1.
  pose proof (f_equal (fun l => nth 2 l 0) E) as E2. pose proof (f_equal (fun l => nth 3 l 0) E) as E3.
  cbn [nth] in E0, E1, E2, E3. rewrite E0, E1, E2, E3. reflexivity.
Qed.

Lemma firstn4_skipn (w : list (list N)) i : (4 * i + 4 <= length w)%nat ->
  firstn 4 (skipn (4 * i) w) =
  [nth (i * 4) w []; nth (i * 4 + 1) w []; nth (i * 4 + 2) w []; nth (i * 4 + 3) w []].
Proof.
  rewrite (Nat.mul_comm 4 i). intros H.
  rewrite (firstn_skipn_nth w (i * 4) []) by lia.
  rewrite (firstn_skipn_nth w (S (i * 4)) []) by lia.
  rewrite (firstn_skipn_nth w (S (S (i * 4))) []) by lia.
  rewrite (firstn_skipn_nth w (S (S (S (i * 4)))) []) by lia.
  rewrite !(Nat.add_comm (i * 4)). reflexivity.
Qed.

Lemma add_round_key_ok w round s : Forall word_ok w -> (4 * round + 4 <= length w)%nat ->
  add_round_key (cols s) (map be_num (firstn 4 (skipn (4 * round) w))) =
  Ret (cols (AddRoundKey w round s)).
Proof.
  intros Hw Hl. rewrite firstn4_skipn by assumption.
  assert (Hn : forall i, (i < length w)%nat -> word_ok (nth i w [])).
  { intros i Hi. apply (proj1 (Forall_forall _ _) Hw). apply nth_In. assumption. }
  unfold cols at 1. cbn [map add_round_key].
  rewrite !add_round_key_col_ok by (apply Hn; lia). cbn [bind].
  unfold cols, AddRoundKey. cbn [map]. rewrite !entry_matrix by lia.
  rewrite !Nat.add_0_r. reflexivity.
Qed.

Lemma slice_words w a b : (a <= b)%nat -> (b <= length w)%nat ->
  slice (map be_num w) (N.of_nat a) (N.of_nat b) = Ret (map be_num (firstn (b - a) (skipn a w))).
Proof.
  intros Ha Hb. rewrite slice_ok by (rewrite ?map_length; lia).
  rewrite !Nat2N.id, skipn_map, firstn_map. reflexivity.
Qed.

(** * Key expansion *)

Lemma be_num_4 a b c d : be_num [a; b; c; d] = ((a * 256 + b) * 256 + c) * 256 + d.
Proof. unfold be_num. cbn [rev app le_num]. lia. Qed.

Lemma word_cases w : word_ok w ->
  exists a b c d, w = [a; b; c; d] /\ a < 256 /\ b < 256 /\ c < 256 /\ d < 256.
Proof.
  intros [Hl Ho]. destruct w as [|a [|b [|c [|d [|]]]]]; try discriminate.
  exists a, b, c, d. repeat match goal with H : octets (_ :: _) |- _ => inversion H; clear H; subst
    | H : Forall _ (_ :: _) |- _ => inversion H; clear H; subst end. auto.
Qed.

Lemma rot_word_ok w : word_ok w -> rot_word (be_num w) = be_num (RotWord w).
Proof.
  intros H. destruct (word_cases w H) as (a & b & c & d & -> & Ha & Hb & Hc & Hd).
  unfold rot_word, RotWord. change 24 with (32 - 8).
  rewrite rot_add; [|lia|rewrite be_num_4; change (2 ^ 32) with 4294967296; lia].
  rewrite !be_num_4. change (2 ^ (32 - 8)) with 16777216. change (2 ^ 8) with 256. lia.
Qed.
Lemma RotWord_ok w : word_ok w -> word_ok (RotWord w).
Proof.
  intros H. destruct (word_cases w H) as (a & b & c & d & -> & Ha & Hb & Hc & Hd).
  split; [reflexivity|]. repeat constructor; assumption.
Qed.
Lemma SubWord_ok w : word_ok w -> word_ok (SubWord w).
Proof.
  intros [Hl Ho]. split; [unfold SubWord; rewrite map_length; assumption|].
  apply Forall_forall. intros x Hx. apply in_map_iff in Hx. destruct Hx as (y & <- & _).
  apply SubByte_lt.
Qed.
Lemma sub_word_ok w : word_ok w -> sub_word (be_num w) = Ret (be_num (SubWord w)).
Proof.
  intros H. destruct (word_cases w H) as (a & b & c & d & -> & Ha & Hb & Hc & Hd).
  unfold sub_word. rewrite !shr_div.
  replace (be_num [a; b; c; d] / 2 ^ 24) with a
    by (rewrite be_num_4; change (2 ^ 24) with 16777216; lia).
  replace (N.land (be_num [a; b; c; d] / 2 ^ 16) 255) with b
    by (change 255 with (N.ones 8); rewrite N.land_ones, be_num_4;
        change (2 ^ 16) with 65536; change (2 ^ 8) with 256; lia).
  replace (N.land (be_num [a; b; c; d] / 2 ^ 8) 255) with c
    by (change 255 with (N.ones 8); rewrite N.land_ones, be_num_4; change (2 ^ 8) with 256; lia).
  replace (N.land (be_num [a; b; c; d]) 255) with d
    by (change 255 with (N.ones 8); rewrite N.land_ones, be_num_4; change (2 ^ 8) with 256; lia).
  rewrite !sbox_ok by assumption. cbn [bind].
  rewrite be_word by apply SubByte_lt. reflexivity.
Qed.

Lemma be_num_xor w v : word_ok w -> word_ok v -> N.lxor (be_num w) (be_num v) = be_num (xor w v).
Proof.
  intros Hw Hv. destruct (word_cases w Hw) as (a & b & c & d & -> & Ha & Hb & Hc & Hd).
  destruct (word_cases v Hv) as (a' & b' & c' & d' & -> & Ha' & Hb' & Hc' & Hd').
  cbn [xor]. rewrite !be_num_4.
  assert (S : forall x y p q, y < 256 -> q < 256 ->
    N.lxor (x * 256 + y) (p * 256 + q) = N.lxor x p * 256 + N.lxor y q).
  { intros x y p q Hy Hq. change 256 with (2 ^ 8) in *.
    rewrite <- (lor_add_disjoint x y), <- (lor_add_disjoint p q) by assumption.
    rewrite <- (lor_add_disjoint (N.lxor x p)) by (apply lxor_lt; assumption).
    apply N.bits_inj. intros k. rewrite N.lxor_spec, !N.lor_spec, N.lxor_spec.
    destruct (N.lt_ge_cases k 8) as [Hk|Hk].
    - rewrite !N.mul_pow2_bits_low by assumption. reflexivity.
    - rewrite !N.mul_pow2_bits_high by assumption.
      rewrite (proj1 (lt_pow2_testbit y 8) Hy k Hk), (proj1 (lt_pow2_testbit q 8) Hq k Hk).
      rewrite N.lxor_spec. cbn. rewrite !orb_false_r. reflexivity. }
  rewrite !S by assumption. reflexivity.
Qed.
Lemma xor_word_ok w v : word_ok w -> word_ok v -> word_ok (xor w v).
Proof.
  intros [Hw Ow] [Hv Ov]. split; [rewrite xor_length; lia|]. apply octets_xor; assumption.
Qed.

Lemma rcon_ok q : (1 <= q <= 10)%nat ->
  idx RCON (N.of_nat q - 1) = Ret (be_num (Rcon q)) /\ word_ok (Rcon q).
Proof.
  intros H. destruct q as [|q]; [lia|].
  do 10 (destruct q as [|q];
    [split; [vm_compute; reflexivity|split; [reflexivity|vm_compute; repeat constructor]]|]).
  lia.
Qed.

Lemma KeyExpansion_from_length k n w : length (KeyExpansion_from k n w) = (n + length w)%nat.
Proof.
  induction n as [|n IH]; [reflexivity|]. cbn [KeyExpansion_from]. rewrite app_length, IH. cbn. lia.
Qed.

(** One iteration of the second loop. *)
Lemma expand_step k w :
  (1 <= k)%nat -> (k <= length w)%nat -> (length w / k <= 10)%nat -> Forall word_ok w ->
  (let i := N.of_nat (length w) in
   let nk := N.of_nat k in
   let W := map be_num w in
   let* temp := idx W (i - 1) in
   let* m := urem i nk in
   let* temp :=
     (if m =? 0 then
        let* q := udiv i nk in
        let* s := sub_word (rot_word temp) in
        let* rc := idx RCON (q - 1) in
        Ret (N.lxor s rc)
      else if (6 <? nk) && (m =? 4) then sub_word temp
      else Ret temp)%bool in
   let* prev := idx W (i - nk) in
   Ret (W ++ [N.lxor prev temp])) = Ret (map be_num (KeyExpansion_from k 1 w))
  /\ Forall word_ok (KeyExpansion_from k 1 w).
Proof.
  intros Hk Hkl Hq Hw. cbv zeta.
  assert (Hn : forall i, (i < length w)%nat -> word_ok (nth i w [])).
  { intros i Hi. apply (proj1 (Forall_forall _ _) Hw). apply nth_In. assumption. }
  rewrite (idx_nth (map be_num w) _ (be_num [])) by (rewrite map_length; lia).
  cbn [bind]. rewrite map_nth.
  replace (N.to_nat (N.of_nat (length w) - 1)) with (length w - 1)%nat by lia.
  rewrite urem_ok by lia. cbn [bind].
  replace (N.of_nat (length w) mod N.of_nat k) with (N.of_nat (length w mod k))
    by (rewrite Nat2N.inj_mod; reflexivity).
  set (t := nth (length w - 1) w []).
  assert (Ht : word_ok t) by (apply Hn; lia).
  cbn [KeyExpansion_from]. fold t.
  set (t' := if Nat.eqb (length w mod k) 0 then xor (SubWord (RotWord t)) (Rcon (length w / k))
             else if andb (Nat.ltb 6 k) (Nat.eqb (length w mod k) 4) then SubWord t else t).
  assert (E : (if N.of_nat (length w mod k) =? 0 then
        let* q := udiv (N.of_nat (length w)) (N.of_nat k) in
        let* s := sub_word (rot_word (be_num t)) in
        let* rc := idx RCON (q - 1) in
        Ret (N.lxor s rc)
      else if (6 <? N.of_nat k) && (N.of_nat (length w mod k) =? 4) then sub_word (be_num t)
      else Ret (be_num t))%bool = Ret (be_num t') /\ word_ok t').
  { unfold t'. destruct (Nat.eqb_spec (length w mod k) 0) as [Hm|Hm].
    - rewrite Hm. cbn [N.of_nat N.eqb]. rewrite udiv_ok by lia. cbn [bind].
      rewrite rot_word_ok, sub_word_ok by (try apply RotWord_ok; assumption). cbn [bind].
      replace (N.of_nat (length w) / N.of_nat k) with (N.of_nat (length w / k))
        by (rewrite Nat2N.inj_div; reflexivity).
      destruct (rcon_ok (length w / k)) as [-> Hr].
      { split; [|assumption]. apply Nat.div_le_lower_bound; lia. }
      cbn [bind]. rewrite be_num_xor by (try assumption; apply SubWord_ok, RotWord_ok; assumption).
      split; [reflexivity|]. apply xor_word_ok; [apply SubWord_ok, RotWord_ok; assumption|assumption].
    - destruct (N.eqb_spec (N.of_nat (length w mod k)) 0) as [Hm'|Hm']; [lia|].
      destruct (N.ltb_spec 6 (N.of_nat k)), (Nat.ltb_spec 6 k); try lia; cbn [andb].
      + destruct (N.eqb_spec (N.of_nat (length w mod k)) 4), (Nat.eqb_spec (length w mod k) 4); try lia.
        * rewrite sub_word_ok by assumption. split; [reflexivity|apply SubWord_ok; assumption].
        * split; [reflexivity|assumption].
      + split; [reflexivity|assumption]. }
  destruct E as [-> Ht']. cbn [bind].
  rewrite (idx_nth (map be_num w) _ (be_num [])) by (rewrite map_length; lia).
  cbn [bind]. rewrite map_nth.
  replace (N.to_nat (N.of_nat (length w) - N.of_nat k)) with (length w - k)%nat by lia.
  rewrite be_num_xor by (try assumption; apply Hn; lia).
  rewrite map_app. split; [reflexivity|].
  apply Forall_app. split; [assumption|]. constructor; [|constructor].
  apply xor_word_ok; [apply Hn; lia|assumption].
Qed.

Lemma blocks4_words key : octets key -> Forall word_ok (blocks 4 key).
Proof.
  intros H. apply Forall_forall. intros g Hg. split.
  - eapply blocks_all_length. exact Hg.
  - eapply octets_blocks; eassumption.
Qed.

Lemma expand_first key : octets key -> (length key mod 4 = 0)%nat ->
  for_range 0 (len key / 4) (fun i w =>
    let* k0 := idx key (4 * i) in
    let* k1 := idx key (4 * i + 1) in
    let* k2 := idx key (4 * i + 2) in
    let* k3 := idx key (4 * i + 3) in
    Ret (w ++ [N.lor (N.lor (N.lor (shl32 k0 24) (shl32 k1 16)) (shl32 k2 8)) k3])) []
  = Ret (map be_num (blocks 4 key)).
Proof.
  intros Ho Hl.
  set (body := fun i w => _).
  destruct (for_range_inv (fun i w => w = map be_num (groups (N.to_nat i) 4 key)) body 0 (len key / 4) [])
    as (w & -> & ->).
  - lia.
  - intros j st Hj ->. unfold body. unfold len in Hj.
    rewrite (idx_nth key (4 * j) 0), (idx_nth key (4 * j + 1) 0),
      (idx_nth key (4 * j + 2) 0), (idx_nth key (4 * j + 3) 0) by lia.
    cbn [bind]. rewrite be_word by (apply octets_nth; assumption).
    eexists. split; [reflexivity|].
    rewrite N2Nat.inj_succ.
    assert (G : forall n m (l : list N), groups (S n) m l = groups n m l ++ [firstn m (skipn (n * m) l)]).
    { induction n as [|n IH]; intros m l; [reflexivity|].
      change (groups (S (S n)) m l) with (firstn m l :: groups (S n) m (skipn m l)).
      rewrite IH, skipn_skipn. replace (n * m + m)%nat with (S n * m)%nat by lia. reflexivity. }
    rewrite G, map_app. cbn [map]. do 3 f_equal.
    rewrite (firstn_skipn_nth key (N.to_nat j * 4) 0) by lia.
    rewrite (firstn_skipn_nth key (S (N.to_nat j * 4)) 0) by lia.
    rewrite (firstn_skipn_nth key (S (S (N.to_nat j * 4))) 0) by lia.
    rewrite (firstn_skipn_nth key (S (S (S (N.to_nat j * 4)))) 0) by lia.
    replace (N.to_nat (4 * j)) with (N.to_nat j * 4)%nat by lia.
    replace (N.to_nat (4 * j + 1)) with (S (N.to_nat j * 4)) by lia.
    replace (N.to_nat (4 * j + 2)) with (S (S (N.to_nat j * 4))) by lia.
    replace (N.to_nat (4 * j + 3)) with (S (S (S (N.to_nat j * 4)))) by lia.
    reflexivity.
  - reflexivity.
  - unfold blocks, len. do 3 f_equal. lia.
Qed.

Lemma expand_key_ok key rc : octets key -> valid_key_size key -> rc = N.of_nat (Nr key) ->
  expand_key key rc = Ret (map be_num (KeyExpansion key)) /\ Forall word_ok (KeyExpansion key) /\
  length (KeyExpansion key) = (4 * (Nr key + 1))%nat.
Proof.
  intros Ho Hsz ->. unfold expand_key. cbv zeta.
  assert (Hk : len key / 4 = N.of_nat (Nk key)) by (unfold Nk, len; lia).
  assert (Hl : (length key mod 4 = 0)%nat) by (destruct Hsz as [-> | [-> | ->]]; reflexivity).
  rewrite expand_first by assumption. cbn [bind].
  rewrite Hk. unfold for_range.
  set (n := (4 * (Nr key + 1) - Nk key)%nat).
  replace (N.to_nat (NB * (N.of_nat (Nr key) + 1) - N.of_nat (Nk key))) with n by (unfold n, NB; lia).
  set (body := fun i w => _).
  assert (Hb : length (blocks 4 key) = Nk key) by (rewrite blocks_length; reflexivity).
  assert (Hloop : forall m, (m <= n)%nat ->
    for_n m (N.of_nat (Nk key)) body (map be_num (blocks 4 key)) =
      Ret (map be_num (KeyExpansion_from (Nk key) m (blocks 4 key)))
    /\ Forall word_ok (KeyExpansion_from (Nk key) m (blocks 4 key))).
  { induction m as [|m IH]; intros Hm.
    - split; [reflexivity|]. apply blocks4_words. assumption.
    - destruct IH as [IH IHw]; [lia|].
      replace (S m) with (m + 1)%nat by lia. rewrite for_n_app, IH. cbn [bind for_n].
      destruct (expand_step (Nk key) (KeyExpansion_from (Nk key) m (blocks 4 key))) as [E Ew].
      + unfold Nk. destruct Hsz as [-> | [-> | ->]]; cbn; lia.
      + rewrite KeyExpansion_from_length. lia.
      + rewrite KeyExpansion_from_length, Hb. unfold n, Nr, Nk in *.
        destruct Hsz as [Hsz | [Hsz | Hsz]]; rewrite Hsz in *;
          [change (16 / 4)%nat with 4%nat in *|change (24 / 4)%nat with 6%nat in *
          |change (32 / 4)%nat with 8%nat in *]; clear - Hm; lia.
      + assumption.
      + rewrite KeyExpansion_from_length, Hb in E. cbv zeta in E.
        replace (m + 1)%nat with (S m) by lia.
        replace (N.of_nat (m + Nk key)) with (N.of_nat (Nk key) + N.of_nat m) in E by lia.
        unfold body. rewrite E. cbn [bind]. split; [reflexivity|exact Ew]. }
  destruct (Hloop n) as [-> Hw]; [lia|]. unfold KeyExpansion. fold n.
  split; [reflexivity|]. split; [assumption|].
  rewrite KeyExpansion_from_length, Hb. unfold n, Nr. lia.
Qed.

(** * Initialisation *)

(** The instance holding a key. *)
Definition keyed (key : list N) : AES :=
  mkAES (N.of_nat (Nr key)) (Some (map be_num (KeyExpansion key))).

Lemma aes_init_ok a key : octets key -> valid_key_size key -> aes_init a key = Ret (Ok tt, keyed key).
Proof.
  intros Ho Hsz. unfold aes_init.
  assert (E : match len key with 16 => Some 10 | 24 => Some 12 | 32 => Some 14 | _ => None end
              = Some (N.of_nat (Nr key))).
  { unfold len, Nr, Nk. destruct Hsz as [-> | [-> | ->]]; reflexivity. }
  rewrite E. destruct (expand_key_ok key _ Ho Hsz eq_refl) as (-> & _ & _). reflexivity.
Qed.
Lemma aes_init_err a key : ~ valid_key_size key -> aes_init a key = Ret (Err InvalidKeySize, a).
Proof.
  intros Hsz. unfold aes_init.
  assert (E : match len key with 16 => Some 10 | 24 => Some 12 | 32 => Some 14 | _ => None end
              = @None N).
  { assert (H : len key <> 16 /\ len key <> 24 /\ len key <> 32)
      by (unfold valid_key_size in Hsz; unfold len; lia).
    destruct H as (H1 & H2 & H3). revert H1 H2 H3. generalize (len key) as n. intros n H1 H2 H3.
    destruct n as [|p]; [reflexivity|].
    do 6 (try destruct p as [p|p|]); try reflexivity; congruence. }
  rewrite E. reflexivity.
Qed.
Lemma valid_key_size_dec key : {valid_key_size key} + {~ valid_key_size key}.
Proof.
  unfold valid_key_size.
  destruct (Nat.eq_dec (length key) 16), (Nat.eq_dec (length key) 24), (Nat.eq_dec (length key) 32);
    (left; tauto) || (right; tauto).
Qed.

(** * Rounds *)

Definition enc_round (w : list (list N)) (s : state) (round : nat) : state :=
  AddRoundKey w round (MixColumns (ShiftRows (SubBytes s))).
Definition dec_round (w : list (list N)) (s : state) (round : nat) : state :=
  InvMixColumns (AddRoundKey w round (InvSubBytes (InvShiftRows s))).

Lemma enc_round_wf w s i : Forall word_ok w -> wf (enc_round w s i).
Proof. intros Hw. apply AddRoundKey_wf; [assumption|]. apply mix_with_wf. Qed.
Lemma dec_round_wf w s i : wf (dec_round w s i).
Proof. apply mix_with_wf. Qed.

Lemma enc_rounds_wf w l : forall s, Forall word_ok w -> wf s -> wf (fold_left (enc_round w) l s).
Proof.
  induction l as [|i l IH]; intros s Hw Hs; [assumption|]. cbn [fold_left].
  apply IH; [assumption|]. apply enc_round_wf. assumption.
Qed.
Lemma dec_rounds_wf w l : forall s, wf s -> wf (fold_left (dec_round w) l s).
Proof.
  induction l as [|i l IH]; intros s Hs; [assumption|]. cbn [fold_left].
  apply IH. apply dec_round_wf.
Qed.

Section Loops.
  Variable w : list (list N).
  Hypothesis Hw : Forall word_ok w.

  Lemma enc_loop n s : wf s -> (4 * (n + 1) <= length w)%nat ->
    for_n n 1 (fun round state =>
        let* state := sub_bytes enc_lookup_sbox state in
        let* state := enc_shift_rows state in
        let* state := mix_columns enc_mix_column state in
        let* k := slice (map be_num w) (round * NB) ((round + 1) * NB) in
        add_round_key state k) (cols s)
    = Ret (cols (fold_left (enc_round w) (seq 1 n) s)).
  Proof.
    intros Hs. induction n as [|n IH]; intros Hl; [reflexivity|].
    replace (S n) with (n + 1)%nat by lia.
    rewrite for_n_app, IH by lia. cbn [bind for_n].
    rewrite seq_app, fold_left_app. cbn [seq fold_left].
    set (t := fold_left (enc_round w) (seq 1 n) s).
    assert (Ht : wf t) by (apply enc_rounds_wf; assumption).
    rewrite sub_bytes_ok by assumption. cbn [bind].
    rewrite shift_rows_ok. cbn [bind].
    rewrite mix_columns_ok by (apply ShiftRows_wf, SubBytes_wf). cbn [bind].
    replace ((1 + N.of_nat n) * NB) with (N.of_nat (4 * (1 + n))) by (unfold NB; lia).
    replace ((1 + N.of_nat n + 1) * NB) with (N.of_nat (4 * (1 + n) + 4)) by (unfold NB; lia).
    rewrite slice_words by lia. cbn [bind].
    replace (4 * (1 + n) + 4 - 4 * (1 + n))%nat with 4%nat by lia.
    rewrite add_round_key_ok by (assumption || lia). reflexivity.
  Qed.

  Lemma dec_loop n : forall s, wf s -> (4 * (n + 1) <= length w)%nat ->
    for_n_rev n 1 (fun round state =>
        let* state := dec_shift_rows state in
        let* state := sub_bytes dec_lookup_sbox state in
        let* k := slice (map be_num w) (round * NB) ((round + 1) * NB) in
        let* state := add_round_key state k in
        mix_columns dec_mix_column state) (cols s)
    = Ret (cols (fold_left (dec_round w) (rev (seq 1 n)) s)).
  Proof.
    induction n as [|n IH]; intros s Hs Hl; [reflexivity|].
    cbn [for_n_rev]. rewrite seq_S, rev_app_distr. cbn [rev app fold_left].
    rewrite inv_shift_rows_ok. cbn [bind].
    rewrite inv_sub_bytes_ok by (apply InvShiftRows_wf; assumption). cbn [bind].
    replace ((1 + N.of_nat n) * NB) with (N.of_nat (4 * (1 + n))) by (unfold NB; lia).
    replace ((1 + N.of_nat n + 1) * NB) with (N.of_nat (4 * (1 + n) + 4)) by (unfold NB; lia).
    rewrite slice_words by lia. cbn [bind].
    replace (4 * (1 + n) + 4 - 4 * (1 + n))%nat with 4%nat by lia.
    rewrite add_round_key_ok by (assumption || lia). cbn [bind].
    rewrite inv_mix_columns_ok
      by (apply AddRoundKey_wf; [assumption|]; apply InvSubBytes_wf, InvShiftRows_wf; assumption).
    cbn [bind]. rewrite IH; [reflexivity| |lia]. apply mix_with_wf.
  Qed.

  (** The last round key is what remains of the schedule. *)
  Lemma last_round_key n : length w = (4 * (n + 1))%nat ->
    slice_from (map be_num w) (N.of_nat n * NB) = Ret (map be_num (firstn 4 (skipn (4 * n) w))).
  Proof.
    intros Hl. unfold slice_from, len. rewrite map_length.
    replace (N.of_nat n * NB) with (N.of_nat (4 * n)) by (unfold NB; lia).
    rewrite slice_words by lia. do 3 f_equal. lia.
  Qed.
  Lemma first_round_key : (4 <= length w)%nat ->
    slice (map be_num w) 0 NB = Ret (map be_num (firstn 4 (skipn (4 * 0) w))).
  Proof. intros Hl. exact (slice_words w 0 4 ltac:(lia) Hl). Qed.
End Loops.

Lemma aes_encrypt_ok key b : octets key -> valid_key_size key -> octets b -> length b = 16%nat ->
  aes_encrypt (keyed key) b = Ret (Ok (Cipher key b)).
Proof.
  intros Hk Hsz Hb Hl. destruct (expand_key_ok key _ Hk Hsz eq_refl) as (_ & Hw & Hwl).
  unfold aes_encrypt. cbv zeta. unfold keyed. cbn [round_count round_keys].
  rewrite to_block_ok by assumption. cbn [bind].
  rewrite first_round_key by lia. cbn [bind].
  rewrite add_round_key_ok by (assumption || lia). cbn [bind].
  assert (Hs0 : wf (AddRoundKey (KeyExpansion key) 0 (state_of_input b)))
    by (apply AddRoundKey_wf; [assumption|apply state_of_input_wf; assumption]).
  assert (Hnr : (1 <= Nr key)%nat) by (unfold Nr; lia).
  unfold for_range. replace (N.to_nat (N.of_nat (Nr key) - 1)) with (Nr key - 1)%nat by lia.
  rewrite enc_loop by (assumption || lia). cbn [bind].
  set (s := fold_left _ _ _).
  assert (Hs : wf s) by (apply enc_rounds_wf; assumption).
  rewrite sub_bytes_ok by assumption. cbn [bind].
  rewrite shift_rows_ok. cbn [bind].
  rewrite last_round_key by assumption. cbn [bind].
  rewrite add_round_key_ok by (assumption || lia). cbn [bind].
  rewrite from_block_ok. reflexivity.
Qed.

Lemma aes_decrypt_ok key b : octets key -> valid_key_size key -> octets b -> length b = 16%nat ->
  aes_decrypt (keyed key) b = Ret (Ok (InvCipher key b)).
Proof.
  intros Hk Hsz Hb Hl. destruct (expand_key_ok key _ Hk Hsz eq_refl) as (_ & Hw & Hwl).
  unfold aes_decrypt. cbv zeta. unfold keyed. cbn [round_count round_keys].
  rewrite to_block_ok by assumption. cbn [bind].
  rewrite last_round_key by assumption. cbn [bind].
  rewrite add_round_key_ok by (assumption || lia). cbn [bind].
  assert (Hs0 : wf (AddRoundKey (KeyExpansion key) (Nr key) (state_of_input b)))
    by (apply AddRoundKey_wf; [assumption|apply state_of_input_wf; assumption]).
  assert (Hnr : (1 <= Nr key)%nat) by (unfold Nr; lia).
  unfold for_range_rev. replace (N.to_nat (N.of_nat (Nr key) - 1)) with (Nr key - 1)%nat by lia.
  rewrite dec_loop by (assumption || lia). cbn [bind].
  set (s := fold_left _ _ _).
  assert (Hs : wf s) by (apply dec_rounds_wf; assumption).
  rewrite inv_shift_rows_ok. cbn [bind].
  rewrite inv_sub_bytes_ok by (apply InvShiftRows_wf; assumption). cbn [bind].
  rewrite first_round_key by lia. cbn [bind].
  rewrite add_round_key_ok by (assumption || lia). cbn [bind].
  rewrite from_block_ok. reflexivity.
Qed.

(** * The specification's two directions are inverse *)

Lemma sub_shift_inv s : wf s -> InvSubBytes (InvShiftRows (ShiftRows (SubBytes s))) = s.
Proof.
  intros Hs. rewrite InvShiftRows_ShiftRows by apply SubBytes_wf.
  apply InvSubBytes_SubBytes. assumption.
Qed.
Lemma inv_sub_shift s : wf s -> ShiftRows (SubBytes (InvSubBytes (InvShiftRows s))) = s.
Proof.
  intros Hs. rewrite SubBytes_InvSubBytes by (apply InvShiftRows_wf; assumption).
  apply ShiftRows_InvShiftRows. assumption.
Qed.

Lemma dec_enc_rounds w n : forall s, Forall word_ok w -> wf s ->
  fold_left (dec_round w) (rev (seq 1 n))
    (ShiftRows (SubBytes (fold_left (enc_round w) (seq 1 n) s))) = ShiftRows (SubBytes s).
Proof.
  induction n as [|n IH]; intros s Hw Hs; [reflexivity|].
  rewrite seq_S, rev_app_distr, !fold_left_app. cbn [rev app fold_left].
  set (t := fold_left (enc_round w) (seq 1 n) s).
  assert (Ht : wf t) by (apply enc_rounds_wf; assumption).
  unfold dec_round at 2. rewrite sub_shift_inv by (apply enc_round_wf; assumption).
  unfold enc_round. rewrite AddRoundKey_twice by apply mix_with_wf.
  rewrite InvMixColumns_MixColumns by (apply ShiftRows_wf, SubBytes_wf).
  apply IH; assumption.
Qed.
Lemma enc_dec_rounds w n : forall s, Forall word_ok w -> wf s ->
  fold_left (enc_round w) (seq 1 n)
    (InvSubBytes (InvShiftRows (fold_left (dec_round w) (rev (seq 1 n)) s)))
  = InvSubBytes (InvShiftRows s).
Proof.
  induction n as [|n IH]; intros s Hw Hs; [reflexivity|].
  rewrite seq_S, rev_app_distr, !fold_left_app. cbn [rev app fold_left].
  rewrite IH by (assumption || apply dec_round_wf).
  unfold enc_round. rewrite inv_sub_shift by apply dec_round_wf.
  assert (Ht : wf (InvSubBytes (InvShiftRows s))) by (apply InvSubBytes_wf, InvShiftRows_wf; assumption).
  unfold dec_round. rewrite MixColumns_InvMixColumns by (apply AddRoundKey_wf; assumption).
  apply AddRoundKey_twice. assumption.
Qed.

Lemma InvCipher_Cipher key b : octets key -> valid_key_size key -> octets b -> length b = 16%nat ->
  InvCipher key (Cipher key b) = b.
Proof.
  intros Hk Hsz Hb Hl. destruct (expand_key_ok key _ Hk Hsz eq_refl) as (_ & Hw & Hwl).
  unfold InvCipher, Cipher. cbv zeta. set (w := KeyExpansion key) in *.
  change (fun s round => AddRoundKey w round (MixColumns (ShiftRows (SubBytes s)))) with (enc_round w).
  change (fun s round => InvMixColumns (AddRoundKey w round (InvSubBytes (InvShiftRows s)))) with (dec_round w).
  pose proof (state_of_input_wf b Hb) as Hin.
  assert (Hs0 : wf (AddRoundKey w 0 (state_of_input b))) by (apply AddRoundKey_wf; assumption).
  rewrite input_of_output
    by (apply AddRoundKey_wf; [assumption|apply ShiftRows_wf, SubBytes_wf]).
  rewrite AddRoundKey_twice by (apply ShiftRows_wf, SubBytes_wf).
  rewrite dec_enc_rounds by assumption.
  rewrite sub_shift_inv by assumption. rewrite AddRoundKey_twice by assumption.
  apply output_of_input. assumption.
Qed.
Lemma Cipher_InvCipher key b : octets key -> valid_key_size key -> octets b -> length b = 16%nat ->
  Cipher key (InvCipher key b) = b.
Proof.
  intros Hk Hsz Hb Hl. destruct (expand_key_ok key _ Hk Hsz eq_refl) as (_ & Hw & Hwl).
  unfold InvCipher, Cipher. cbv zeta. set (w := KeyExpansion key) in *.
  change (fun s round => AddRoundKey w round (MixColumns (ShiftRows (SubBytes s)))) with (enc_round w).
  change (fun s round => InvMixColumns (AddRoundKey w round (InvSubBytes (InvShiftRows s)))) with (dec_round w).
  pose proof (state_of_input_wf b Hb) as Hin.
  assert (Hs0 : wf (AddRoundKey w (Nr key) (state_of_input b))) by (apply AddRoundKey_wf; assumption).
  set (d := fold_left (dec_round w) _ _).
  assert (Hd : wf d) by (apply dec_rounds_wf; assumption).
  assert (Hd' : wf (InvSubBytes (InvShiftRows d))) by (apply InvSubBytes_wf, InvShiftRows_wf; assumption).
  rewrite input_of_output by (apply AddRoundKey_wf; assumption).
  rewrite AddRoundKey_twice by assumption.
  unfold d. rewrite enc_dec_rounds by assumption.
  rewrite inv_sub_shift by assumption. rewrite AddRoundKey_twice by assumption.
  apply output_of_input. assumption.
Qed.

Lemma Cipher_length key b : length (Cipher key b) = 16%nat.
Proof. reflexivity. Qed.
Lemma InvCipher_length key b : length (InvCipher key b) = 16%nat.
Proof. reflexivity. Qed.
Lemma Cipher_octets key b : octets key -> valid_key_size key -> octets (Cipher key b).
Proof.
  intros Hk Hsz. destruct (expand_key_ok key _ Hk Hsz eq_refl) as (_ & Hw & _).
  apply octets_output. apply AddRoundKey_wf; [assumption|]. apply ShiftRows_wf, SubBytes_wf.
Qed.
Lemma InvCipher_octets key b : octets key -> valid_key_size key -> octets b -> octets (InvCipher key b).
Proof.
  intros Hk Hsz Hb. destruct (expand_key_ok key _ Hk Hsz eq_refl) as (_ & Hw & _).
  apply octets_output. apply AddRoundKey_wf; [assumption|].
  apply InvSubBytes_wf, InvShiftRows_wf.
  change (fun s round => InvMixColumns (AddRoundKey (KeyExpansion key) round (InvSubBytes (InvShiftRows s))))
    with (dec_round (KeyExpansion key)).
  apply dec_rounds_wf. apply AddRoundKey_wf; [assumption|]. apply state_of_input_wf. assumption.
Qed.

(** * Histories *)

Definition holds (a : AES) (k : option (list N)) : Prop :=
  match k with
  | None => round_keys a = None
  | Some key => a = keyed key /\ octets key /\ valid_key_size key
  end.

Lemma key_size_ok_spec key : BlockCipher.key_size_ok key = true <-> valid_key_size key.
Proof.
  unfold BlockCipher.key_size_ok, valid_key_size. cbn [existsb].
  rewrite !orb_true_iff, !Nat.eqb_eq. intuition discriminate.
Qed.

Lemma aes_encrypt_none a b : length b = 16%nat -> round_keys a = None ->
  aes_encrypt a b = Ret (Err NotInitialized).
Proof.
  intros Hl Ha. unfold aes_encrypt. rewrite to_block_ok by assumption. cbn [bind].
  rewrite Ha. reflexivity.
Qed.
Lemma aes_decrypt_none a b : length b = 16%nat -> round_keys a = None ->
  aes_decrypt a b = Ret (Err NotInitialized).
Proof.
  intros Hl Ha. unfold aes_decrypt. rewrite to_block_ok by assumption. cbn [bind].
  rewrite Ha. reflexivity.
Qed.

Lemma aes_call_step a k c : aes_call_ok c -> holds a k ->
  exists a', aes_call a c = Ret (fst (BlockCipher.step k c), a') /\
    holds a' (snd (BlockCipher.step k c)).
Proof.
  intros Hc Ha. destruct c as [key|b|b]; cbn [aes_call BlockCipher.step].
  - cbn in Hc. destruct (BlockCipher.key_size_ok key) eqn:E.
    + apply key_size_ok_spec in E. rewrite aes_init_ok by assumption.
      exists (keyed key). split; [reflexivity|]. cbn. auto.
    + assert (H : ~ valid_key_size key) by (rewrite <- key_size_ok_spec; congruence).
      rewrite aes_init_err by assumption. exists a. split; [reflexivity|assumption].
  - destruct Hc as [Ho Hl]. destruct k as [key|].
    + destruct Ha as (-> & Hk & Hsz). rewrite aes_encrypt_ok by assumption.
      exists (keyed key). split; [reflexivity|]. cbn. auto.
    + cbn in Ha. rewrite aes_encrypt_none by assumption.
      exists a. split; [reflexivity|assumption].
  - destruct Hc as [Ho Hl]. destruct k as [key|].
    + destruct Ha as (-> & Hk & Hsz). rewrite aes_decrypt_ok by assumption.
      exists (keyed key). split; [reflexivity|]. cbn. auto.
    + cbn in Ha. rewrite aes_decrypt_none by assumption.
      exists a. split; [reflexivity|assumption].
Qed.

Lemma aes_run_ok calls : forall a k, Forall aes_call_ok calls -> holds a k ->
  aes_run a calls = map Some (BlockCipher.replies k calls).
Proof.
  induction calls as [|c cs IH]; intros a k Hc Ha; [reflexivity|].
  inversion Hc; subst. cbn [aes_run BlockCipher.replies].
  destruct (aes_call_step a k c) as (a' & -> & Ha'); [assumption..|].
  destruct (BlockCipher.step k c) as [r k'] eqn:E. cbn [fst snd map] in *.
  f_equal. apply IH; assumption.
Qed.
