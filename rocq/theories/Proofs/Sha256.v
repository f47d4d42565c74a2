(** SHA-256: the streaming hasher. *)
From Coq Require Import ZArith NArith List Arith Lia Bool ZifyBool ZifyNat ZifyN.
From Verif Require Import Rust Calls.
From Verif.Model Require Import Sha256.
From Verif.Spec Require Octets Sha256 Hasher.
From Verif.Proofs Require Import Base Bits Sha256Core.
Import Spec.Octets.
Import ListNotations.
Local Open Scope N_scope.
Ltac Zify.zify_post_hook ::= Z.div_mod_to_equations.

Notation hasher := Hasher.hasher.
Notation mkHasher := Hasher.mkHasher.
Notation chain := Hasher.chain.
Notation pending := Hasher.pending.
Notation total := Hasher.total.
Notation absorb := Hasher.absorb.
Notation absorb_block := Hasher.absorb_block.
Notation leftover := Hasher.leftover.
Notation final := Hasher.final.

(** * Blocks to words *)

Lemma length_4 (l : list N) : length l = 4%nat -> exists a b c d, l = [a; b; c; d].
Proof.
  intros Hl. do 4 (destruct l as [|? l]; [discriminate|]).
  destruct l; [|discriminate]. do 4 eexists. reflexivity.
Qed.

Lemma words_of_block b : octets b -> length b = 64%nat ->
  Spec.Sha256.words_of_bits (bits_of_octets b) = map be_num (blocks 4 b).
Proof.
  intros Hb Hl. unfold Spec.Sha256.words_of_bits.
  change 32%nat with (8 * 4)%nat. rewrite blocks_bits by discriminate.
  rewrite map_map. apply map_ext_in. intros g Hg.
  apply num_of_bits_octets. eapply octets_blocks; eassumption.
Qed.

Lemma words_of_block_ok b : octets b -> length b = 64%nat ->
  length (Spec.Sha256.words_of_bits (bits_of_octets b)) = 16%nat /\
  words (Spec.Sha256.words_of_bits (bits_of_octets b)).
Proof.
  intros Hb Hl. rewrite words_of_block by assumption. split.
  - rewrite map_length, blocks_length, Hl. reflexivity.
  - apply Forall_map, Forall_forall. intros g Hg.
    pose proof (blocks_all_length _ _ _ Hg) as Hgl.
    pose proof (octets_blocks _ _ _ Hb Hg) as Hgo.
    apply be_num_lt in Hgo. rewrite Hgl in Hgo. exact Hgo.
Qed.

Lemma fill_block_ok b : octets b -> length b = 64%nat ->
  fill_block b (repeat 0 16) = Ret (Spec.Sha256.words_of_bits (bits_of_octets b)).
Proof.
  intros Hb Hl. unfold fill_block.
  rewrite (fill_loop (fun i _ => be_num (firstn 4 (skipn (i * 4) b))) _ _ 0).
  - rewrite words_of_block by assumption. f_equal.
    unfold blocks. rewrite Hl. change (64 / 4)%nat with 16%nat. rewrite repeat_length.
    apply (list_ext _ _ 0); [rewrite !map_length, seq_length, groups_length; reflexivity|].
    intros i Hi. rewrite map_length, seq_length in Hi.
    rewrite nth_map_seq by assumption.
    change 0 with (be_num []). rewrite map_nth. rewrite nth_groups by assumption. reflexivity.
  - rewrite repeat_length. intros i o Hi Ho.
    rewrite !(idx_nth b _ 0) by (rewrite Hl; lia). cbn [bind].
    rewrite be_word by (apply octets_nth; assumption). f_equal.
    rewrite (firstn_skipn_nth b (i * 4) 0) by lia.
    rewrite (firstn_skipn_nth b (S (i * 4)) 0) by lia.
    rewrite (firstn_skipn_nth b (S (S (i * 4))) 0) by lia.
    rewrite (firstn_skipn_nth b (S (S (S (i * 4)))) 0) by lia.
    cbn [firstn].
    replace (N.to_nat (N.of_nat i * 4)) with (i * 4)%nat by lia.
    replace (N.to_nat (N.of_nat i * 4 + 1)) with (S (i * 4))%nat by lia.
    replace (N.to_nat (N.of_nat i * 4 + 2)) with (S (S (i * 4)))%nat by lia.
    replace (N.to_nat (N.of_nat i * 4 + 3)) with (S (S (S (i * 4))))%nat by lia.
    reflexivity.
Qed.

Definition state_ok (h : list N) : Prop := length h = 8%nat /\ words h.

Lemma absorb_block_ok h b : state_ok h -> state_ok (absorb_block h b).
Proof.
  intros [Hl Hw]. split; [apply compress_length; assumption|apply compress_words; assumption].
Qed.
Lemma absorb_ok h l : state_ok h -> state_ok (absorb h l).
Proof.
  unfold absorb. generalize (blocks 64 l) as B. intros B. revert h.
  induction B as [|b B IH]; intros h Hh; [assumption|]. cbn. apply IH, absorb_block_ok, Hh.
Qed.

Lemma block_step h b : state_ok h -> octets b -> length b = 64%nat ->
  (let* block := fill_block b (repeat 0 16) in process_block h block) = Ret (absorb_block h b).
Proof.
  intros [Hl Hw] Hb Hbl. rewrite fill_block_ok by assumption. cbn [bind].
  destruct (words_of_block_ok b Hb Hbl) as [H1 H2].
  rewrite process_block_ok by assumption. reflexivity.
Qed.

(** * leftover *)

Lemma leftover_length l : length (leftover l) = (length l mod 64)%nat.
Proof. unfold leftover. rewrite skipn_length. rewrite Nat.mod_eq by lia. reflexivity. Qed.
Lemma leftover_small l : (length l < 64)%nat -> leftover l = l.
Proof. intros H. unfold leftover. rewrite Nat.div_small by assumption. reflexivity. Qed.
Lemma absorb_small h l : (length l < 64)%nat -> absorb h l = h.
Proof. intros H. unfold absorb, blocks. rewrite Nat.div_small by assumption. reflexivity. Qed.
Lemma absorb_app h l l' : (length l mod 64 = 0)%nat -> absorb h (l ++ l') = absorb (absorb h l) l'.
Proof. intros H. unfold absorb. rewrite blocks_app by (assumption || lia). apply fold_left_app. Qed.
Lemma leftover_app l l' : (length l mod 64 = 0)%nat -> leftover (l ++ l') = leftover l'.
Proof.
  intros H. unfold leftover. rewrite app_length.
  apply Nat.mod_divides in H; [|lia]. destruct H as [k Hk]. rewrite Hk.
  rewrite (Nat.mul_comm 64 k), Nat.div_add_l by lia.
  rewrite skipn_app, skipn_all2 by lia. cbn [app]. f_equal. lia.
Qed.

Lemma split_blocks_leftover l :
  exists l0, l = l0 ++ leftover l /\ (length l0 mod 64 = 0)%nat.
Proof.
  exists (firstn (64 * (length l / 64)) l). split; [symmetry; apply firstn_skipn|].
  rewrite firstn_length. pose proof (Nat.mul_div_le (length l) 64).
  rewrite Nat.min_l by lia. rewrite Nat.mul_comm. apply Nat.mod_mul. lia.
Qed.

Lemma absorb_leftover h l l' : absorb h (l ++ l') = absorb (absorb h l) (leftover l ++ l').
Proof.
  destruct (split_blocks_leftover l) as (l0 & E & H0). rewrite E at 1 2.
  rewrite <- app_assoc, !(absorb_app h l0) by assumption.
  rewrite (absorb_small (absorb h l0) (leftover l)); [reflexivity|].
  rewrite leftover_length. apply Nat.mod_upper_bound. lia.
Qed.
Lemma leftover_leftover l l' : leftover (l ++ l') = leftover (leftover l ++ l').
Proof.
  destruct (split_blocks_leftover l) as (l0 & E & H0). rewrite E at 1.
  rewrite <- app_assoc, leftover_app by assumption. reflexivity.
Qed.
Lemma absorb_one h b : length b = 64%nat -> absorb h b = absorb_block h b.
Proof. intros H. unfold absorb. rewrite blocks_single by (assumption || lia). reflexivity. Qed.
Lemma leftover_one b : length b = 64%nat -> leftover b = [].
Proof. intros H. apply length_zero_iff_nil. rewrite leftover_length, H. reflexivity. Qed.

(** * The abstraction relation *)

Record abs (T : target) (s : SHA256) (st : hasher) : Prop := {
  abs_h : sha_h s = chain st;
  abs_ok : state_ok (chain st);
  abs_len : sha_length s = total st;
  abs_lt : total st < usize_mod T;
  abs_buf : length (sha_buffer s) = 64%nat;
  abs_oct : octets (sha_buffer s);
  abs_pend : pending st = firstn (N.to_nat (total st mod 64)) (sha_buffer s)
}.

Lemma usize_mod_64 T : usize_mod T mod 64 = 0.
Proof. unfold usize_mod, usize_bits. destruct (width T); reflexivity. Qed.

Lemma mod_usize_64 T n : (n mod usize_mod T) mod 64 = n mod 64.
Proof.
  pose proof (usize_mod_64 T) as H. pose proof (usize_mod_ge T).
  assert (E : usize_mod T = 64 * (usize_mod T / 64)) by (pose proof (N.div_mod (usize_mod T) 64); lia).
  rewrite E. rewrite N.mod_mul_r by lia.
  rewrite (N.mul_comm 64), N.mod_add by lia. apply N.mod_mod. lia.
Qed.

Lemma abs_pend_length T s st : abs T s st -> length (pending st) = N.to_nat (total st mod 64).
Proof.
  intros A. rewrite (abs_pend _ _ _ A), firstn_length, (abs_buf _ _ _ A). lia.
Qed.

Lemma abs_fresh T : abs T sha256_new Hasher.fresh.
Proof.
  split; cbn.
  - apply H_H0.
  - split; [apply H0_length|apply words_H0].
  - reflexivity.
  - pose proof (usize_mod_ge T). lia.
  - reflexivity.
  - change (octets (repeat 0 64)). apply octets_repeat. lia.
  - reflexivity.
Qed.

(** Agreement between an outcome of the model and one of the machine. *)
Definition agree {A B} (R : A -> B -> Prop) (m : res A) (o : option B) : Prop :=
  match m, o with
  | Ret a, Some b => R a b
  | Panic, None => True
  | _, _ => False
  end.

Lemma update_byte_agree T s st b : abs T s st -> b < 256 ->
  agree (abs T) (update_byte T b s) (Hasher.update (usize_mod T) (overflow_checks T) st [b]).
Proof.
  intros A Hb. pose proof (abs_pend_length _ _ _ A) as Hp.
  destruct A as [Ah Aok Alen Alt Abuf Aoct Apend].
  unfold update_byte, Hasher.update, BLOCK_SIZE.
  rewrite Alen. rewrite urem_ok by lia. cbn [bind].
  set (o := N.to_nat (total st mod 64)) in *.
  assert (Ho : (o < 64)%nat) by lia.
  rewrite upd_ok by (rewrite Abuf; lia). cbn [bind].
  fold o. rewrite set_nth_split by lia. rewrite <- Apend.
  set (buf := pending st ++ b :: skipn (S o) (sha_buffer s)).
  assert (Hbuf : length buf = 64%nat).
  { unfold buf. rewrite app_length, Hp. cbn [length]. rewrite skipn_length. lia. }
  assert (Hbufo : octets buf).
  { unfold buf. apply octets_app. split; [rewrite Apend; apply octets_firstn; assumption|].
    constructor; [assumption|apply octets_skipn; assumption]. }
  unfold uadd, fit_usize. cbn [length]. change (N.of_nat 1) with 1.
  destruct (N.ltb_spec (total st + 1) (usize_mod T)) as [Hlt|Hge].
  2: destruct (overflow_checks T).
  - (* no overflow *)
    cbn [bind]. destruct (N.leb_spec (usize_mod T) (total st + 1)); [lia|].
    rewrite andb_false_r. rewrite N.mod_small by assumption.
    rewrite urem_ok by lia. cbn [bind].
    destruct (N.eqb_spec ((total st + 1) mod 64) 0) as [E|E]; cbn [negb].
    + assert (Ho63 : o = 63%nat) by lia.
      assert (Hfull : buf = pending st ++ [b]).
      { unfold buf. rewrite skipn_all2 by lia. reflexivity. }
      rewrite Ah. rewrite <- bind_assoc. rewrite block_step by assumption. cbn [bind agree].
      split; cbn [chain pending total sha_h sha_length sha_buffer]; try assumption; try reflexivity.
      * rewrite <- Hfull, absorb_one by assumption. reflexivity.
      * apply absorb_ok. assumption.
      * rewrite <- Hfull, leftover_one by assumption.
        rewrite E. reflexivity.
    + assert (Hn : N.to_nat ((total st + 1) mod 64) = S o) by lia.
      assert (Hs : (length (pending st ++ [b]) < 64)%nat) by (rewrite app_length; cbn; lia).
      cbn [agree].
      split; cbn [chain pending total sha_h sha_length sha_buffer]; try assumption; try reflexivity.
      * rewrite absorb_small by assumption. assumption.
      * apply absorb_ok. assumption.
      * rewrite leftover_small by assumption. rewrite Hn. unfold buf.
        rewrite firstn_app, Hp. replace (S o - o)%nat with 1%nat by lia.
        rewrite firstn_all2 by lia. reflexivity.
  - destruct (N.leb_spec (usize_mod T) (total st + 1)); [|lia]. cbn. exact I.
  - (* wrap *)
    cbn [bind andb]. assert (Ht : total st + 1 = usize_mod T) by lia.
    rewrite Ht. rewrite N.mod_same by (pose proof (usize_mod_ge T); lia).
    rewrite urem_ok by lia. cbn [bind]. change (negb (0 mod 64 =? 0)) with false.
    assert (Ho63 : o = 63%nat).
    { pose proof (usize_mod_64 T). assert ((total st + 1) mod 64 = 0) by (rewrite Ht; assumption). lia. }
    assert (Hfull : buf = pending st ++ [b]).
    { unfold buf. rewrite skipn_all2 by lia. reflexivity. }
    rewrite Ah. rewrite <- bind_assoc. cbn iota. rewrite block_step by assumption. cbn [bind agree].
    split; cbn [chain pending total sha_h sha_length sha_buffer]; try assumption; try reflexivity.
    * rewrite <- Hfull, absorb_one by assumption. reflexivity.
    * apply absorb_ok. assumption.
    * pose proof (usize_mod_ge T); lia.
    * rewrite <- Hfull, leftover_one by assumption. reflexivity.
Qed.

Lemma hasher_update_cons limit checks st b d :
  total st < limit ->
  Hasher.update limit checks st (b :: d) =
  match Hasher.update limit checks st [b] with
  | Some st' => Hasher.update limit checks st' d
  | None => None
  end.
Proof.
  intros Ht. unfold Hasher.update. cbn [length].
  change (b :: d) with ([b] ++ d). rewrite app_assoc.
  rewrite (absorb_leftover _ (pending st ++ [b])), (leftover_leftover (pending st ++ [b]) d).
  change (N.of_nat 1) with 1.
  destruct (N.leb_spec limit (total st + 1)) as [H1|H1].
  - destruct (N.leb_spec limit (total st + N.of_nat (S (length d)))); [|lia].
    destruct checks; [reflexivity|].
    cbn [andb pending chain total]. rewrite N.add_mod_idemp_l by lia.
    replace (total st + 1 + N.of_nat (length d)) with (total st + N.of_nat (S (length d))) by lia.
    reflexivity.
  - rewrite !andb_false_r. cbn [pending chain total]. rewrite (N.mod_small (total st + 1)) by assumption.
    replace (total st + 1 + N.of_nat (length d)) with (total st + N.of_nat (S (length d))) by lia.
    reflexivity.
Qed.

Lemma hasher_update_nil limit checks st : total st < limit -> (length (pending st) < 64)%nat ->
  Hasher.update limit checks st [] = Some st.
Proof.
  intros Ht Hp. unfold Hasher.update. rewrite app_nil_r. cbn [length]. change (N.of_nat 0) with 0.
  rewrite N.add_0_r. destruct (N.leb_spec limit (total st)); [lia|]. rewrite andb_false_r.
  rewrite absorb_small, leftover_small, N.mod_small by assumption. destruct st; reflexivity.
Qed.

Lemma update_agree T s st d : abs T s st -> octets d ->
  agree (abs T) (sha256_update T s d) (Hasher.update (usize_mod T) (overflow_checks T) st d).
Proof.
  intros A Hd. revert s st A. induction Hd as [|b d Hb Hd IH]; intros s st A.
  - rewrite hasher_update_nil; [exact A|apply (abs_lt _ _ _ A)|].
    rewrite (abs_pend_length _ _ _ A). lia.
  - rewrite hasher_update_cons by apply (abs_lt _ _ _ A).
    unfold sha256_update. cbn [for_each].
    pose proof (update_byte_agree T s st b A Hb) as Hag.
    destruct (update_byte T b s) as [s'| |], (Hasher.update (usize_mod T) (overflow_checks T) st [b]) as [st'|];
      cbn [agree] in Hag; try contradiction.
    + cbn [bind]. apply (IH s' st' Hag).
    + exact I.
Qed.

(** * digest *)

Lemma zero_tail buf o : (N.to_nat o <= length buf)%nat ->
  for_range o (len buf) (fun i b => upd b i 0) buf =
  Ret (firstn (N.to_nat o) buf ++ repeat 0 (length buf - N.to_nat o)).
Proof.
  intros Ho.
  destruct (for_range_inv
    (fun i b => b = firstn (N.to_nat o) buf ++ repeat 0 (N.to_nat i - N.to_nat o) ++ skipn (N.to_nat i) buf)
    (fun i b => upd b i 0) o (len buf) buf) as (b & -> & ->).
  - unfold len. lia.
  - intros i b Hi ->. unfold len in Hi.
    rewrite app_assoc. rewrite (firstn_skipn_nth buf (N.to_nat i) 0) by lia.
    rewrite upd_app' by (rewrite len_app, len_repeat; unfold len; rewrite firstn_length; lia).
    eexists. split; [reflexivity|].
    rewrite <- app_assoc. f_equal.
    replace (N.to_nat (N.succ i) - N.to_nat o)%nat with (N.to_nat i - N.to_nat o + 1)%nat by lia.
    rewrite repeat_app, <- app_assoc. f_equal. cbn [repeat app]. f_equal. f_equal. lia.
  - replace (N.to_nat o - N.to_nat o)%nat with 0%nat by lia. cbn [repeat app].
    symmetry. apply firstn_skipn.
  - rewrite len_length. rewrite skipn_all2 by lia. rewrite app_nil_r. reflexivity.
Qed.

Lemma write_u64_be_ok d v : length d = 8%nat -> write_u64_be d v = Ret (be_octets 8 v).
Proof.
  intros Hd. destruct (length_8 d Hd) as (a & b & c & e & f & g & h & i & ->).
  rewrite be_octets_8. reflexivity.
Qed.

Lemma write_digest_ok h : length h = 8%nat -> write_digest h = Ret (flat_map (be_octets 4) h).
Proof.
  intros Hh. destruct (length_8 h Hh) as (a & b & c & d & e & f & g & k & ->).
  cbn [flat_map]. rewrite !be_octets_4. reflexivity.
Qed.

Lemma or_0x80_zero l l' i : i = len l -> or_0x80 (l ++ 0 :: l') i = Ret (l ++ 128 :: l').
Proof.
  intros ->. unfold or_0x80. rewrite (idx_nth _ _ 0) by (rewrite app_length, len_length; cbn; lia).
  cbn [bind]. rewrite len_length, app_nth2 by lia. rewrite Nat.sub_diag. cbn [nth].
  rewrite upd_app. reflexivity.
Qed.

Lemma put_length buf v : length buf = 64%nat ->
  with_slice buf 56 64 (fun d => write_u64_be d v) = Ret (firstn 56 buf ++ be_octets 8 v).
Proof.
  intros Hb. unfold with_slice. rewrite slice_ok by (rewrite ?Hb; cbn; lia). cbn [bind].
  rewrite write_u64_be_ok.
  - cbn [bind]. change (N.to_nat 56) with 56%nat. change (N.to_nat 64) with 64%nat.
    rewrite (skipn_all2 (n := 64)) by lia. rewrite app_nil_r. reflexivity.
  - rewrite firstn_length, skipn_length, Hb. reflexivity.
Qed.

Lemma final_length p v : (length p < 64)%nat ->
  length (final p v) = (if Nat.ltb 55 (length p) then 128 else 64)%nat.
Proof.
  intros Hp. unfold final. rewrite !app_length, repeat_length, be_octets_length. cbn [length].
  destruct (Nat.ltb_spec 55 (length p)).
  - rewrite Nat.mod_small by lia. lia.
  - replace (119 - length p)%nat with (55 - length p + 1 * 64)%nat by lia.
    rewrite Nat.mod_add by lia. rewrite Nat.mod_small by lia. lia.
Qed.

Lemma octets_final p v : octets p -> octets (final p v).
Proof.
  intros Hp. unfold final. rewrite !octets_app. repeat split; try assumption.
  - repeat constructor.
  - apply octets_repeat. lia.
  - apply octets_be_octets.
Qed.

Lemma digest_agree T s st : abs T s st ->
  agree (fun ds ds' => fst ds = fst ds' /\ abs T (snd ds) (snd ds'))
    (sha256_digest T s) (Hasher.digest (usize_mod T) (overflow_checks T) st).
Proof.
  intros A. pose proof (abs_pend_length _ _ _ A) as Hp.
  destruct A as [Ah Aok Alen Alt Abuf Aoct Apend].
  unfold sha256_digest, Hasher.digest.
  rewrite Alen. unfold BLOCK_SIZE at 1. rewrite urem_ok by lia. cbn [bind].
  rewrite zero_tail by lia. cbn [bind].
  set (on := total st mod 64) in *. rewrite <- Apend. rewrite Abuf.
  set (p := pending st) in *.
  assert (Hon : on < 64) by (unfold on; lia).
  assert (Hpo : octets p) by (rewrite Apend; apply octets_firstn; assumption).
  pose proof (usize_mod_ge T) as Hge. change (2 ^ 32) with 4294967296 in Hge.
  rewrite uadd_ok by lia. cbn [bind]. unfold BLOCK_SIZE.
  replace (64 - N.to_nat on)%nat with (S (63 - N.to_nat on)) by lia.
  change (repeat 0 (S (63 - N.to_nat on))) with (0 :: repeat 0 (63 - N.to_nat on)).
  set (checks := overflow_checks T).
  assert (Hbits : umul T (total st) 8 =
     if (checks && (usize_mod T <=? 8 * total st))%bool then Panic else Ret ((8 * total st) mod usize_mod T)).
  { unfold umul, fit_usize. rewrite (N.mul_comm (total st) 8).
    destruct (N.ltb_spec (8 * total st) (usize_mod T)), (N.leb_spec (usize_mod T) (8 * total st)); try lia.
    - rewrite andb_false_r, N.mod_small by assumption. reflexivity.
    - unfold checks. destruct (overflow_checks T); reflexivity. }
  assert (Hu64 : as_u64 ((8 * total st) mod usize_mod T) = (8 * total st) mod usize_mod T).
  { unfold as_u64. apply N.mod_small.
    eapply N.lt_le_trans; [apply N.mod_lt; lia|].
    unfold usize_mod, usize_bits. destruct (width T); vm_compute; discriminate. }
  set (bl := (8 * total st) mod usize_mod T) in *.
  destruct (N.ltb_spec 64 (on + 9)) as [Hov|Hov].
  - (* two blocks *)
    rewrite or_0x80_zero by (unfold len; lia). cbn [bind].
    assert (Hb1 : length (p ++ 128 :: repeat 0 (63 - N.to_nat on)) = 64%nat).
    { rewrite app_length. cbn [length]. rewrite repeat_length. lia. }
    assert (Ho1 : octets (p ++ 128 :: repeat 0 (63 - N.to_nat on))).
    { apply octets_app. split; [assumption|]. constructor; [lia|apply octets_repeat; lia]. }
    rewrite Ah. rewrite <- bind_assoc. rewrite block_step by assumption. cbn [bind].
    rewrite len_repeat. rewrite usub_ok by lia. cbn [bind].
    rewrite Hbits. destruct (checks && (usize_mod T <=? 8 * total st))%bool; [exact I|].
    cbn [bind]. change (N.of_nat 64 - 8) with 56. change (N.of_nat 64) with 64.
    rewrite put_length by reflexivity. cbn [bind negb]. rewrite Hu64.
    change (firstn 56 (repeat 0 64)) with (repeat 0 56).
    assert (Hb2 : length (repeat 0 56 ++ be_octets 8 bl) = 64%nat).
    { rewrite app_length, be_octets_length. reflexivity. }
    assert (Ho2 : octets (repeat 0 56 ++ be_octets 8 bl)).
    { apply octets_app. split; [apply octets_repeat; lia|apply octets_be_octets]. }
    rewrite <- bind_assoc. rewrite block_step; [|apply absorb_block_ok; assumption|assumption|assumption].
    cbn [bind].
    assert (Hf : final p bl = (p ++ 128 :: repeat 0 (63 - N.to_nat on)) ++ (repeat 0 56 ++ be_octets 8 bl)).
    { unfold final. rewrite <- app_assoc. cbn [app]. f_equal. f_equal.
      rewrite app_assoc, <- repeat_app. f_equal. f_equal. rewrite Nat.mod_small by lia. lia. }
    assert (Habs : absorb (chain st) (final p bl) =
       absorb_block (absorb_block (chain st) (p ++ 128 :: repeat 0 (63 - N.to_nat on))) (repeat 0 56 ++ be_octets 8 bl)).
    { rewrite Hf, absorb_app by (rewrite Hb1; reflexivity). rewrite !absorb_one by assumption. reflexivity. }
    rewrite write_digest_ok by (rewrite <- Habs; apply absorb_ok; assumption).
    cbn [bind agree fst snd]. rewrite Habs. split; [reflexivity|].
    split; cbn [chain pending total sha_h sha_length sha_buffer]; try assumption; try reflexivity.
    + rewrite <- Habs. apply absorb_ok. assumption.
    + fold on. rewrite Hp. f_equal.
      rewrite final_length by lia. destruct (Nat.ltb_spec 55 (length p)); [|lia].
      rewrite Hf, skipn_app, Hb1. rewrite skipn_all2 by lia. reflexivity.
  - (* one block *)
    rewrite Ah. cbn [bind].
    assert (Hb0 : length (p ++ 0 :: repeat 0 (63 - N.to_nat on)) = 64%nat).
    { rewrite app_length. cbn [length]. rewrite repeat_length. lia. }
    unfold len at 1. rewrite Hb0. rewrite usub_ok by lia. cbn [bind].
    rewrite Hbits. destruct (checks && (usize_mod T <=? 8 * total st))%bool; [exact I|].
    cbn [bind]. change (N.of_nat 64 - 8) with 56. unfold len at 1. rewrite Hb0. change (N.of_nat 64) with 64.
    rewrite put_length by assumption. cbn [bind negb]. rewrite Hu64.
    assert (Hfn : firstn 56 (p ++ 0 :: repeat 0 (63 - N.to_nat on)) = p ++ 0 :: repeat 0 (55 - N.to_nat on)).
    { rewrite firstn_app, firstn_all2 by lia. f_equal.
      replace (56 - length p)%nat with (S (55 - N.to_nat on)) by lia. cbn [firstn]. f_equal.
      replace (63 - N.to_nat on)%nat with (55 - N.to_nat on + 8)%nat by lia.
      rewrite repeat_app, firstn_app, repeat_length, Nat.sub_diag. cbn [firstn].
      rewrite app_nil_r. apply firstn_all2. rewrite repeat_length. lia. }
    rewrite Hfn. rewrite <- app_assoc. cbn [app].
    rewrite or_0x80_zero by (unfold len; lia). cbn [bind].
    assert (Hf : final p bl = p ++ 128 :: repeat 0 (55 - N.to_nat on) ++ be_octets 8 bl).
    { unfold final. cbn [app]. do 4 f_equal.
      replace (119 - length p)%nat with (55 - N.to_nat on + 1 * 64)%nat by lia.
      rewrite Nat.mod_add by lia. apply Nat.mod_small. lia. }
    rewrite <- Hf.
    assert (Hfl : length (final p bl) = 64%nat).
    { rewrite final_length by lia. destruct (Nat.ltb_spec 55 (length p)); [lia|reflexivity]. }
    rewrite <- bind_assoc. rewrite block_step; [|assumption|apply octets_final; assumption|assumption].
    cbn [bind]. rewrite <- absorb_one by assumption.
    rewrite write_digest_ok by (apply absorb_ok; assumption).
    cbn [bind agree fst snd]. split; [reflexivity|].
    split; cbn [chain pending total sha_h sha_length sha_buffer]; try assumption; try reflexivity.
    + apply absorb_ok. assumption.
    + apply octets_final. assumption.
    + fold on. rewrite Hp, Hfl. reflexivity.
Qed.

(** * Histories *)

Lemma run_agree T calls : forall s st, abs T s st -> Forall sha_call_ok calls ->
  sha_run T calls s = Hasher.results (usize_mod T) (overflow_checks T) calls st.
Proof.
  induction calls as [|c cs IH]; intros s st A Hc; [reflexivity|].
  inversion Hc as [|? ? Hc1 Hcs]; subst.
  cbn [sha_run Hasher.results]. destruct c as [d|].
  - pose proof (update_agree T s st d A Hc1) as Hag.
    destruct (sha256_update T s d) as [s'| |], (Hasher.update _ _ st d) as [st'|];
      cbn [agree] in Hag; try contradiction; [|reflexivity].
    rewrite (IH s' st' Hag Hcs). reflexivity.
  - pose proof (digest_agree T s st A) as Hag.
    destruct (sha256_digest T s) as [[d s']| |], (Hasher.digest _ _ st) as [[d' st']|];
      cbn [agree fst snd] in Hag; try contradiction; [|reflexivity].
    destruct Hag as [-> Hag]. rewrite (IH s' st' Hag Hcs). reflexivity.
Qed.
