(** The objects of SHA-256 and HMAC, field by field. *)
From Coq Require Import ZArith NArith List Arith Lia Bool ZifyBool ZifyNat ZifyN.
From Verif Require Import Rust Calls.
From Verif.Model Require Import Sha256 Hmac.
From Verif.Model Require Aes AesCbc.
From Verif.Spec Require Octets Sha256 Hmac Hasher Residue Stream Aes BlockCipher Partner.
From Verif.Proofs Require Import Base Bits.
From Verif.Proofs Require Sha256 Sha256Main Messages Partner Hmac Aes AesCbc Collision KeySchedule.
Import ListNotations.
Import Spec.Octets Spec.Hasher Spec.Residue.
Import Proofs.Sha256.
Local Open Scope N_scope.

Record holds (T : target) (s : SHA256) (m : memory) : Prop :=
  mkHolds { holds_abs : abs T s (known m); holds_block : sha_buffer s = block m }.

Lemma abs_small T s st : abs T s st -> (length (pending st) < 64)%nat.
Proof. intros A. rewrite (abs_pend_length _ _ _ A). lia. Qed.

(** * One byte *)
Lemma update_byte_buffer T b s s' : length (sha_buffer s) = 64%nat -> update_byte T b s = Ret s' ->
  let o := N.to_nat (sha_length s mod 64) in
  sha_buffer s' = firstn o (sha_buffer s) ++ b :: skipn (S o) (sha_buffer s).
Proof.
  intros L. unfold update_byte, BLOCK_SIZE. rewrite urem_ok by lia. cbn [bind].
  rewrite upd_ok by (rewrite L; lia). cbn [bind]. rewrite set_nth_split by lia.
  set (buf := _ ++ _ :: _). destruct (uadd T (sha_length s) 1) as [n| |]; try discriminate. cbn [bind].
  rewrite urem_ok by lia. cbn [bind]. destruct (negb (n mod 64 =? 0)); [intros E; injection E as <-; reflexivity|].
  destruct (fill_block buf (repeat 0 16)) as [x| |]; try discriminate. cbn [bind].
  destruct (process_block (sha_h s) x) as [h| |]; try discriminate. cbn [bind].
  intros E. injection E as <-. reflexivity.
Qed.
Lemma write_one T b m s s' : holds T s m -> update_byte T b s = Ret s' ->
  sha_buffer s' = overlay (leftover (pending (known m) ++ [b])) (last (blocks 64 (pending (known m) ++ [b])) (block m)).
Proof.
  intros [A B] E. pose proof (abs_small _ _ _ A) as Hp. pose proof (abs_pend_length _ _ _ A) as Lp.
  apply update_byte_buffer in E; [|apply (abs_buf _ _ _ A)]. cbv zeta in E. rewrite E. clear E.
  rewrite (abs_len _ _ _ A), <- (abs_pend _ _ _ A), B, <- Lp.
  pose proof (abs_buf _ _ _ A) as L. rewrite B in L.
  destruct (Nat.eq_dec (length (pending (known m))) 63) as [F|F].
  - assert (L1 : length (pending (known m) ++ [b]) = 64%nat) by (rewrite app_length; cbn [length]; lia).
    rewrite leftover_one, blocks_single by (exact L1 || lia). cbn [last]. change (overlay [] (pending (known m) ++ [b])) with (pending (known m) ++ [b]).
    rewrite skipn_all2 by lia. reflexivity.
  - assert (L1 : (length (pending (known m) ++ [b]) < 64)%nat) by (rewrite app_length; cbn [length]; lia).
    rewrite leftover_small, Messages.blocks_short by exact L1. unfold overlay. cbn [last].
    rewrite app_length. cbn [length]. rewrite <- app_assoc. cbn [app]. rewrite Nat.add_1_r. reflexivity.
Qed.
Lemma update_byte_holds T b m s : holds T s m -> b < 256 ->
  agree (holds T) (update_byte T b s) (write (usize_mod T) (overflow_checks T) m [b]).
Proof.
  intros H Hb. pose proof (update_byte_agree T s (known m) b (holds_abs _ _ _ H) Hb) as G. unfold write.
  destruct (update_byte T b s) as [s'| |] eqn:E, (update (usize_mod T) (overflow_checks T) (known m) [b]) as [st|];
    cbn [agree] in G |- *; try contradiction; [|exact I].
  split; cbn [known block]; [exact G|]. eapply write_one; eassumption.
Qed.

(** * Updates *)
Lemma last_default (X : list (list N)) : forall d d', X <> [] -> last X d = last X d'.
Proof. induction X as [|x [|y X] IH]; intros d d' H; [contradiction|reflexivity|]. cbn [last]. apply IH. discriminate. Qed.
Lemma last_after (F : list N) X d : last (F :: X) d = last X F.
Proof. destruct X as [|x X]; [reflexivity|]. change (last (F :: x :: X) d) with (last (x :: X) d). apply last_default. discriminate. Qed.
Lemma write_cons limit checks m b d : (length (pending (known m)) < 64)%nat -> length (block m) = 64%nat -> total (known m) < limit ->
  write limit checks m (b :: d) =
  match write limit checks m [b] with
  | Some m' => write limit checks m' d
  | None => None
  end.
Proof.
  intros Hp Hb Ht. unfold write. rewrite hasher_update_cons by exact Ht.
  destruct (update limit checks (known m) [b]) as [st|] eqn:U; [|reflexivity]. cbn [known block].
  destruct (update limit checks st d) as [st'|]; [|reflexivity]. do 2 f_equal.
  assert (P : pending st = leftover (pending (known m) ++ [b])).
  { unfold update in U. destruct (checks && _)%bool; [discriminate|]. injection U as <-. reflexivity. }
  rewrite P. clear U P st st'. set (p := pending (known m)) in *. set (B := block m) in *.
  replace (p ++ b :: d) with ((p ++ [b]) ++ d) by (rewrite <- app_assoc; reflexivity).
  rewrite <- leftover_leftover.
  destruct (Nat.eq_dec (length p) 63) as [F|F].
  - assert (L1 : length (p ++ [b]) = 64%nat) by (rewrite app_length; cbn [length]; lia).
    rewrite blocks_app by (lia || (rewrite L1; reflexivity)). rewrite (leftover_one (p ++ [b])), (blocks_single 64 (p ++ [b])) by (exact L1 || lia).
    cbn [app]. rewrite last_after. reflexivity.
  - assert (L1 : (length (p ++ [b]) < 64)%nat) by (rewrite app_length; cbn [length]; lia).
    rewrite (leftover_small (p ++ [b])) by exact L1.
    rewrite (Messages.blocks_short 64 (p ++ [b])) by exact L1. cbn [last].
    destruct (blocks 64 ((p ++ [b]) ++ d)) as [|x X] eqn:E; [|f_equal; apply last_default; discriminate].
    cbn [last].
    assert (L2 : (length ((p ++ [b]) ++ d) < 64)%nat).
    { apply (f_equal (@length (list N))) in E. rewrite blocks_length in E. cbn [length] in E. apply Nat.div_small_iff in E; lia. }
    rewrite leftover_small by exact L2. unfold overlay. f_equal. rewrite (app_length (p ++ [b]) d).
    rewrite skipn_app. rewrite (skipn_all2 (n := length (p ++ [b]) + length d) (p ++ [b])) by lia. cbn [app].
    rewrite skipn_skipn. f_equal. lia.
Qed.
Lemma write_nil limit checks m : (length (pending (known m)) < 64)%nat -> length (block m) = 64%nat ->
  total (known m) < limit -> pending (known m) = firstn (length (pending (known m))) (block m) ->
  write limit checks m [] = Some m.
Proof.
  intros Hp Hb Ht E. unfold write. rewrite hasher_update_nil by assumption. rewrite app_nil_r.
  rewrite leftover_small, Messages.blocks_short by exact Hp. cbn [last]. unfold overlay.
  rewrite E at 1. rewrite firstn_skipn. destruct m; reflexivity.
Qed.
Lemma update_holds T d : octets d -> forall s m, holds T s m ->
  agree (holds T) (sha256_update T s d) (write (usize_mod T) (overflow_checks T) m d).
Proof.
  induction 1 as [|b d Hb Hd IH]; intros s m H.
  - destruct H as [A B]. pose proof (abs_buf _ _ _ A) as L. pose proof (abs_pend _ _ _ A) as P.
    rewrite write_nil; [split; assumption|apply (abs_small _ _ _ A)|congruence|apply (abs_lt _ _ _ A)|].
    rewrite (abs_pend_length _ _ _ A), <- B. exact P.
  - pose proof H as [A B]. pose proof (abs_buf _ _ _ A) as L.
    rewrite write_cons; [|apply (abs_small _ _ _ A)|congruence|apply (abs_lt _ _ _ A)].
    unfold sha256_update. cbn [for_each]. pose proof (update_byte_holds T b m s H Hb) as G.
    destruct (update_byte T b s) as [s'| |], (write (usize_mod T) (overflow_checks T) m [b]) as [m'|];
      cbn [agree] in G; try contradiction; [|exact I].
    cbn [bind]. apply (IH s' m' G).
Qed.

(** * Digests *)
Lemma digest_block T s st d s' : abs T s st -> sha256_digest T s = Ret (d, s') ->
  let f := final (pending st) ((8 * total st) mod usize_mod T) in sha_buffer s' = skipn (length f - 64) f.
Proof.
  intros A E. pose proof (abs_pend_length _ _ _ A) as Hp.
  destruct A as [Ah Aok Alen Alt Abuf Aoct Apend].
  unfold sha256_digest in E.
  rewrite Alen in E. unfold BLOCK_SIZE at 1 in E. rewrite urem_ok in E by lia. cbn [bind] in E.
  rewrite zero_tail in E by lia. cbn [bind] in E.
  set (on := total st mod 64) in *. rewrite <- Apend in E. rewrite Abuf in E.
  set (p := pending st) in *.
  assert (Hon : on < 64) by (unfold on; lia).
  assert (Hpo : octets p) by (rewrite Apend; apply octets_firstn; assumption).
  pose proof (usize_mod_ge T) as Hge. change (2 ^ 32) with 4294967296 in Hge.
  rewrite uadd_ok in E by lia. cbn [bind] in E. unfold BLOCK_SIZE in E.
  replace (64 - N.to_nat on)%nat with (S (63 - N.to_nat on)) in E by lia.
  change (repeat 0 (S (63 - N.to_nat on))) with (0 :: repeat 0 (63 - N.to_nat on)) in E.
  set (checks := overflow_checks T).
  assert (Hbits : umul T (total st) 8 =
     if (checks && (usize_mod T <=? 8 * total st))%bool then Panic else Ret ((8 * total st) mod usize_mod T)).
  { unfold umul, fit_usize. rewrite (N.mul_comm (total st) 8).
    destruct (N.ltb_spec (8 * total st) (usize_mod T)), (N.leb_spec (usize_mod T) (8 * total st)); try lia.
    - rewrite andb_false_r, N.mod_small by assumption. reflexivity.
    - unfold checks. destruct (overflow_checks T); reflexivity. }
  assert (Hu64 : as_u64 ((8 * total st) mod usize_mod T) = (8 * total st) mod usize_mod T).
  { unfold as_u64. apply N.mod_small.
    eapply N.lt_le_trans; [apply N.mod_lt; lia|].
    unfold usize_mod, usize_bits. destruct (width T); vm_compute; discriminate. }
  set (bl := (8 * total st) mod usize_mod T) in *. intros f.
  destruct (N.ltb_spec 64 (on + 9)) as [Hov|Hov].
  - (* two blocks *)
    rewrite or_0x80_zero in E by (unfold len; lia). cbn [bind] in E.
    assert (Hb1 : length (p ++ 128 :: repeat 0 (63 - N.to_nat on)) = 64%nat).
    { rewrite app_length. cbn [length]. rewrite repeat_length. lia. }
    assert (Ho1 : octets (p ++ 128 :: repeat 0 (63 - N.to_nat on))).
    { apply octets_app. split; [assumption|]. constructor; [lia|apply octets_repeat; lia]. }
    rewrite Ah in E. rewrite <- bind_assoc in E. rewrite block_step in E by assumption. cbn [bind] in E.
    rewrite len_repeat in E. rewrite usub_ok in E by lia. cbn [bind] in E.
    rewrite Hbits in E. destruct (checks && (usize_mod T <=? 8 * total st))%bool; [discriminate E|].
    cbn [bind] in E. change (N.of_nat 64 - 8) with 56 in E. change (N.of_nat 64) with 64 in E.
    rewrite put_length in E by reflexivity. cbn [bind negb] in E. rewrite Hu64 in E.
    change (firstn 56 (repeat 0 64)) with (repeat 0 56) in E.
    set (B2 := repeat 0 56 ++ be_octets 8 bl) in *.
    assert (Hf : f = (p ++ 128 :: repeat 0 (63 - N.to_nat on)) ++ B2).
    { unfold f, final, B2. rewrite <- app_assoc. cbn [app]. f_equal. f_equal.
      rewrite app_assoc, <- repeat_app. f_equal. f_equal. rewrite Nat.mod_small by lia. lia. }
    destruct (fill_block B2 (repeat 0 16)) as [x| |]; try discriminate E. cbn [bind] in E.
    destruct (process_block _ x) as [h| |]; try discriminate E. cbn [bind] in E.
    destruct (write_digest h) as [o| |]; try discriminate E. cbn [bind] in E. injection E as _ <-. cbn [sha_buffer].
    assert (Lf : length f = 128%nat).
    { rewrite Hf, app_length, Hb1. unfold B2. rewrite app_length, repeat_length, be_octets_length. reflexivity. }
    rewrite Lf, Hf. change (128 - 64)%nat with 64%nat. rewrite skipn_app, Hb1. rewrite skipn_all2 by lia. reflexivity.
  - (* one block *)
    cbn [bind] in E. rewrite Ah in E.
    assert (Hb0 : length (p ++ 0 :: repeat 0 (63 - N.to_nat on)) = 64%nat).
    { rewrite app_length. cbn [length]. rewrite repeat_length. lia. }
    unfold len at 1 in E. rewrite Hb0 in E. rewrite usub_ok in E by lia. cbn [bind] in E.
    rewrite Hbits in E. destruct (checks && (usize_mod T <=? 8 * total st))%bool; [discriminate E|].
    cbn [bind] in E. change (N.of_nat 64 - 8) with 56 in E. unfold len at 1 in E. rewrite Hb0 in E. change (N.of_nat 64) with 64 in E.
    rewrite put_length in E by assumption. cbn [bind negb] in E. rewrite Hu64 in E.
    assert (Hfn : firstn 56 (p ++ 0 :: repeat 0 (63 - N.to_nat on)) = p ++ 0 :: repeat 0 (55 - N.to_nat on)).
    { rewrite firstn_app, firstn_all2 by lia. f_equal.
      replace (56 - length p)%nat with (S (55 - N.to_nat on)) by lia. cbn [firstn]. f_equal.
      replace (63 - N.to_nat on)%nat with (55 - N.to_nat on + 8)%nat by lia.
      rewrite repeat_app, firstn_app, repeat_length, Nat.sub_diag. cbn [firstn].
      rewrite app_nil_r. apply firstn_all2. rewrite repeat_length. lia. }
    rewrite Hfn in E. rewrite <- app_assoc in E. cbn [app] in E.
    rewrite or_0x80_zero in E by (unfold len; lia). cbn [bind] in E.
    assert (Hf : f = p ++ 128 :: repeat 0 (55 - N.to_nat on) ++ be_octets 8 bl).
    { unfold f, final. cbn [app]. do 4 f_equal.
      replace (119 - length p)%nat with (55 - N.to_nat on + 1 * 64)%nat by lia.
      rewrite Nat.mod_add by lia. apply Nat.mod_small. lia. }
    rewrite <- Hf in E.
    destruct (fill_block f (repeat 0 16)) as [x| |]; try discriminate E. cbn [bind] in E.
    destruct (process_block _ x) as [h| |]; try discriminate E. cbn [bind] in E.
    destruct (write_digest h) as [o| |]; try discriminate E. cbn [bind] in E. injection E as _ <-. cbn [sha_buffer].
    assert (Hfl : length f = 64%nat).
    { unfold f. rewrite final_length by lia. destruct (Nat.ltb_spec 55 (length p)); [lia|reflexivity]. }
    rewrite Hfl. reflexivity.
Qed.
Lemma digest_holds T s m : holds T s m ->
  agree (fun x m' => holds T (snd x) m') (sha256_digest T s) (finish (usize_mod T) (overflow_checks T) m).
Proof.
  intros [A B]. pose proof (digest_agree T s (known m) A) as G. unfold finish.
  destruct (sha256_digest T s) as [[d s']| |] eqn:E, (digest (usize_mod T) (overflow_checks T) (known m)) as [[d' st]|];
    cbn [agree fst snd] in G |- *; try contradiction; [|exact I].
  split; cbn [known block]; [apply G|]. eapply digest_block; eassumption.
Qed.

(** * Histories *)
Fixpoint sha_after (T : target) (calls : list call) (s : SHA256) : res SHA256 :=
  match calls with
  | [] => Ret s
  | Update d :: cs => let* s' := sha256_update T s d in sha_after T cs s'
  | Digest :: cs => let* x := sha256_digest T s in sha_after T cs (snd x)
  end.
Lemma after_holds T calls : Forall sha_call_ok calls -> forall s m, holds T s m ->
  agree (holds T) (sha_after T calls s) (memory_after (usize_mod T) (overflow_checks T) calls m).
Proof.
  induction 1 as [|[d|] cs Hc Hcs IH]; intros s m H; cbn [sha_after memory_after]; [exact H|..].
  - pose proof (update_holds T d Hc s m H) as G.
    destruct (sha256_update T s d) as [s'| |], (write (usize_mod T) (overflow_checks T) m d) as [m'|];
      cbn [agree] in G; try contradiction; [|exact I]. cbn [bind]. apply IH, G.
  - pose proof (digest_holds T s m H) as G.
    destruct (sha256_digest T s) as [[d s']| |], (finish (usize_mod T) (overflow_checks T) m) as [m'|];
      cbn [agree snd] in G; try contradiction; [|exact I]. cbn [bind snd]. apply IH, G.
Qed.
Lemma blank_holds T : holds T sha256_new blank.
Proof. split; [apply abs_fresh|reflexivity]. Qed.

(** * One message *)
Lemma update_message T m s : octets m -> N.of_nat (length m) < usize_mod T -> sha256_update T sha256_new m = Ret s ->
  s = mkSHA256 (absorb Spec.Sha256.H0 m) (held m) (N.of_nat (length m)) /\ abs T s (Sha256Main.fed T m).
Proof.
  intros O L E. destruct (Sha256Main.update_fresh T m O L) as (s0 & E0 & A). rewrite E in E0. injection E0 as <-.
  pose proof (update_holds T m O sha256_new blank (blank_holds T)) as G. rewrite E in G.
  unfold write, update in G. cbn [blank known fresh pending total chain app] in G. rewrite N.add_0_l in G.
  destruct (N.leb_spec (usize_mod T) (N.of_nat (length m))); [lia|]. rewrite andb_false_r in G.
  cbn [agree] in G. destruct G as [G1 G2]. cbn [block] in G2. split; [|exact A].
  destruct s as [h b n]. cbn [sha_buffer] in G2. rewrite G2.
  pose proof (abs_h _ _ _ A) as Eh. pose proof (abs_len _ _ _ A) as El. cbn in Eh, El. rewrite Eh, El. reflexivity.
Qed.
Lemma padded_final m : padded m = firstn (64 * (length m / 64)) m ++ final (leftover m) (8 * N.of_nat (length m)).
Proof.
  unfold padded, final. rewrite leftover_length. rewrite (app_assoc (firstn _ _)). unfold leftover. rewrite firstn_skipn. reflexivity.
Qed.
Lemma last_block_final m :
  last_block m = skipn (length (final (leftover m) (8 * N.of_nat (length m))) - 64) (final (leftover m) (8 * N.of_nat (length m))).
Proof.
  unfold last_block. rewrite padded_final. set (a := firstn _ m). set (f := final _ _).
  assert (Lf : (64 <= length f)%nat).
  { unfold f. rewrite final_length; [destruct (Nat.ltb 55 _); lia|]. rewrite leftover_length. apply Nat.mod_upper_bound. lia. }
  rewrite app_length, skipn_app. rewrite skipn_all2 by lia. cbn [app]. f_equal. lia.
Qed.
Lemma digest_message T m s d s' : octets m -> 8 * N.of_nat (length m) < usize_mod T ->
  sha256_update T sha256_new m = Ret s -> sha256_digest T s = Ret (d, s') ->
  d = Spec.Sha256.sha256 m /\ sha_length s' = N.of_nat (length m) /\ sha_buffer s' = last_block m /\
  flat_map (be_octets 4) (sha_h s') = Spec.Sha256.sha256 m /\ Sha256.state_ok (sha_h s').
Proof.
  intros O L E D. destruct (update_message T m s O ltac:(lia) E) as [_ A].
  pose proof (digest_block T s _ d s' A D) as B. cbv zeta in B. cbn [Sha256Main.fed pending total] in B.
  rewrite N.mod_small in B by lia. rewrite <- last_block_final in B.
  pose proof (digest_agree T s _ A) as G. rewrite D in G. unfold digest in G. cbn [Sha256Main.fed pending total chain] in G.
  destruct (N.leb_spec (usize_mod T) (8 * N.of_nat (length m))); [lia|]. rewrite andb_false_r in G.
  cbn [agree fst snd] in G. destruct G as [G1 G2]. rewrite N.mod_small in G1, G2 by lia.
  assert (V : flat_map (be_octets 4) (absorb (absorb Spec.Sha256.H0 m) (final (leftover m) (8 * N.of_nat (length m)))) = Spec.Sha256.sha256 m).
  { rewrite <- Sha256Main.with_length_final. apply Sha256Main.sha256_with_true_length. }
  pose proof (abs_h _ _ _ G2) as Eh. pose proof (abs_ok _ _ _ G2) as Ok. cbn [chain] in Eh, Ok. rewrite <- Eh in Ok.
  repeat apply conj; [congruence|apply (abs_len _ _ _ G2)|exact B|rewrite Eh; exact V|apply Ok..].
Qed.
Lemma chain_inj h h' : Sha256.state_ok h -> Sha256.state_ok h' ->
  flat_map (be_octets 4) h = flat_map (be_octets 4) h' -> h = h'.
Proof.
  intros [L W] [L' W'] E. revert h' L' W' E. generalize dependent 8%nat. intros n L. revert n L.
  induction W as [|x h Hx W IH]; intros n L h' L' W' E; destruct h' as [|x' h']; cbn [length] in L, L'; try lia; [reflexivity|].
  inversion W' as [|? ? Hx' W'']; subst. cbn [flat_map] in E.
  assert (Q : be_octets 4 x = be_octets 4 x' /\ flat_map (be_octets 4) h = flat_map (be_octets 4) h').
  { apply Collision.app_inj_length; [rewrite !be_octets_length; reflexivity|exact E]. }
  destruct Q as [Q1 Q2]. f_equal.
  - apply (f_equal be_num) in Q1. rewrite !be_num_be_octets in Q1. rewrite !N.mod_small in Q1; [exact Q1|exact Hx'|exact Hx].
  - apply (IH (length h) eq_refl); [lia|exact W''|exact Q2].
Qed.

(** * HMAC *)
Lemma held_block b : length b = 64%nat -> held b = b.
Proof.
  intros L. unfold held, overlay. rewrite (leftover_one b L), (blocks_single 64 b ltac:(discriminate) L). reflexivity.
Qed.
Lemma held_short b m : length b = 64%nat -> (length m < 64)%nat -> held (b ++ m) = m ++ skipn (length m) b.
Proof.
  intros L S. unfold held, overlay. rewrite leftover_app by (rewrite L; reflexivity).
  rewrite (leftover_small m S). rewrite (blocks_app 64 b m) by (rewrite ?L; reflexivity || lia).
  rewrite (blocks_single 64 b ltac:(discriminate) L), (Messages.blocks_short 64 m S). reflexivity.
Qed.

Definition inner_text (K m : list N) : list N := xor (Spec.Hmac.block_key K) Spec.Hmac.ipad ++ m.
Definition outer_text (K m : list N) : list N :=
  xor (Spec.Hmac.block_key K) Spec.Hmac.opad ++ Spec.Partner.inner_hash K m.
Lemma pads_ok K : octets K ->
  octets (xor (Spec.Hmac.block_key K) Spec.Hmac.ipad) /\ octets (xor (Spec.Hmac.block_key K) Spec.Hmac.opad) /\
  length (xor (Spec.Hmac.block_key K) Spec.Hmac.ipad) = 64%nat /\ length (xor (Spec.Hmac.block_key K) Spec.Hmac.opad) = 64%nat.
Proof.
  intros O. pose proof (Proofs.Hmac.octets_block_key K O). destruct (Proofs.Hmac.keyed_pads_length K) as [A B].
  repeat apply conj; [apply octets_xor; [assumption|apply Proofs.Hmac.octets_ipad]|apply octets_xor; [assumption|apply Proofs.Hmac.octets_opad]|exact A|exact B].
Qed.
Lemma outer_key K : octets K -> xor (xor (Spec.Hmac.block_key K) Spec.Hmac.opad) Spec.Hmac.opad = Spec.Hmac.block_key K.
Proof.
  intros O. apply xor_cancel_r. rewrite Proofs.Hmac.block_key_length. reflexivity.
Qed.
Lemma hash_run T m : octets m -> 8 * N.of_nat (length m) < usize_mod T ->
  exists s s', sha256_update T sha256_new m = Ret s /\ sha256_digest T s = Ret (Spec.Sha256.sha256 m, s').
Proof.
  intros O L. destruct (Sha256Main.sha256_conforms T [m]) as (s & s' & E & D); cbn [concat]; rewrite ?app_nil_r; try assumption.
  rewrite Sha256Main.updates_concat in E. cbn [concat] in E, D. rewrite app_nil_r in E, D. exists s, s'. split; assumption.
Qed.
Lemma big T : 8 * 128 < usize_mod T.
Proof. destruct T as [[|] c]; reflexivity. Qed.

Lemma hmac_object T K chunks : octets K -> Forall octets chunks -> 8 * N.of_nat (length K) < usize_mod T ->
  8 * N.of_nat (64 + length (concat chunks)) < usize_mod T ->
  exists h0 h, hmac_new T K = Ret h0 /\ hmac_updates T h0 chunks = Ret h /\
    sha256_update T sha256_new (inner_text K (concat chunks)) = Ret (inner h) /\
    sha256_update T sha256_new (xor (Spec.Hmac.block_key K) Spec.Hmac.opad) = Ret (outer h).
Proof.
  intros O F Lk Lm. destruct (pads_ok K O) as (Oi & Oo & Li & Lo). pose proof (big T) as B.
  assert (Om : octets (concat chunks)) by (apply octets_concat; exact F).
  rewrite (Proofs.Partner.new_block_key T K O Lk), (Proofs.Partner.new_block T _ (Proofs.Hmac.block_key_length K)).
  destruct (Sha256Main.update_fresh T _ Oi) as (i0 & Ei & _); [rewrite Li; lia|].
  destruct (Sha256Main.update_fresh T _ Oo) as (o0 & Eo & _); [rewrite Lo; lia|].
  destruct (Sha256Main.update_fresh T (inner_text K (concat chunks))) as (i1 & Ei1 & _).
  { unfold inner_text. apply octets_app. split; assumption. }
  { unfold inner_text. rewrite app_length, Li. lia. }
  rewrite Ei, Eo. cbn [bind]. exists (mkHMac i0 o0), (mkHMac i1 o0).
  split; [reflexivity|]. rewrite Proofs.Hmac.hmac_updates_concat. unfold hmac_update. cbn [inner outer].
  pose proof Ei1 as Ei2. unfold inner_text in Ei2. rewrite Proofs.Hmac.sha256_update_app, Ei in Ei2. cbn [bind] in Ei2.
  rewrite Ei2. cbn [bind]. split; [reflexivity|]. split; [exact Ei1|reflexivity].
Qed.
Lemma hmac_digested T K m h : octets K -> octets m -> 8 * N.of_nat (64 + length m) < usize_mod T ->
  sha256_update T sha256_new (inner_text K m) = Ret (inner h) ->
  sha256_update T sha256_new (xor (Spec.Hmac.block_key K) Spec.Hmac.opad) = Ret (outer h) ->
  exists h' o1, hmac_digest T h = Ret (Spec.Hmac.hmac K m, h') /\
    sha256_digest T (inner h) = Ret (Spec.Partner.inner_hash K m, inner h') /\
    sha256_update T sha256_new (outer_text K m) = Ret o1 /\
    sha256_digest T o1 = Ret (Spec.Hmac.hmac K m, outer h').
Proof.
  intros O Om L Ei Eo. destruct (pads_ok K O) as (Oi & Oo & Li & Lo). pose proof (big T) as B.
  assert (Oit : octets (inner_text K m)) by (unfold inner_text; apply octets_app; split; assumption).
  assert (Lit : 8 * N.of_nat (length (inner_text K m)) < usize_mod T) by (unfold inner_text; rewrite app_length, Li; exact L).
  destruct (hash_run T _ Oit Lit) as (s & i' & E & Ed). rewrite Ei in E. injection E as <-.
  assert (Oot : octets (outer_text K m)) by (unfold outer_text; apply octets_app; split; [assumption|apply Sha256Main.octets_spec_sha256]).
  assert (Lot : 8 * N.of_nat (length (outer_text K m)) < usize_mod T)
    by (unfold outer_text, Spec.Partner.inner_hash; rewrite app_length, Lo, Sha256Main.spec_sha256_length; lia).
  destruct (hash_run T _ Oot Lot) as (o1 & o' & E1 & Ed1).
  exists (mkHMac i' o'), o1. unfold hmac_digest. cbn [inner outer].
  split; [|split; [exact Ed|split; [exact E1|exact Ed1]]].
  rewrite Ed. cbn [bind]. pose proof E1 as E2. unfold outer_text in E2. rewrite Proofs.Hmac.sha256_update_app, Eo in E2. cbn [bind] in E2.
  unfold Spec.Partner.inner_hash in E2. unfold inner_text. rewrite E2. cbn [bind]. rewrite Ed1. reflexivity.
Qed.

(** * The last block, by where the message ends *)
Lemma last_block_fits m : (length m mod 64 <= 55)%nat ->
  last_block m = leftover m ++ [128] ++ repeat 0 (55 - length m mod 64) ++ be_octets 8 (8 * N.of_nat (length m)).
Proof.
  intros H. rewrite last_block_final. unfold final. rewrite leftover_length.
  replace ((119 - length m mod 64) mod 64)%nat with (55 - length m mod 64)%nat by lia.
  set (f := leftover m ++ _). replace (length f - 64)%nat with 0%nat; [reflexivity|].
  unfold f. rewrite !app_length, leftover_length, repeat_length, be_octets_length. cbn [length]. lia.
Qed.
Lemma last_block_spills m : (55 < length m mod 64)%nat ->
  last_block m = repeat 0 56 ++ be_octets 8 (8 * N.of_nat (length m)).
Proof.
  intros H. pose proof (Nat.mod_upper_bound (length m) 64 ltac:(discriminate)) as B.
  rewrite last_block_final. unfold final. rewrite leftover_length.
  replace ((119 - length m mod 64) mod 64)%nat with ((63 - length m mod 64) + 56)%nat by lia.
  rewrite repeat_app, <- app_assoc.
  replace (leftover m ++ [128] ++ repeat 0 (63 - length m mod 64) ++ repeat 0 56 ++ be_octets 8 (8 * N.of_nat (length m)))
    with ((leftover m ++ [128] ++ repeat 0 (63 - length m mod 64)) ++ repeat 0 56 ++ be_octets 8 (8 * N.of_nat (length m)))
    by (rewrite <- !app_assoc; reflexivity).
  set (a := leftover m ++ _). set (b := repeat 0 56 ++ _).
  assert (Lb : length b = 64%nat) by (unfold b; rewrite app_length, repeat_length, be_octets_length; reflexivity).
  rewrite app_length, Lb. replace (length a + 64 - 64)%nat with (length a) by lia.
  rewrite skipn_app, skipn_all, Nat.sub_diag. reflexivity.
Qed.
Lemma last_block_eq m m' : length m = length m' ->
  (last_block m = last_block m' <-> ((length m mod 64 <= 55)%nat -> leftover m = leftover m')).
Proof.
  intros L. destruct (le_lt_dec (length m mod 64) 55) as [H|H].
  - rewrite !last_block_fits, L by (rewrite <- ?L; exact H). split.
    + intros E _. apply Collision.app_inj_length in E; [exact (proj1 E)|]. rewrite !leftover_length, L. reflexivity.
    + intros E. rewrite E; [reflexivity|rewrite <- L; exact H].
  - rewrite !last_block_spills, L by (rewrite <- ?L; exact H). split; [intros _ ?; lia|reflexivity].
Qed.

Lemma skipn_xor n : forall a b, skipn n (xor a b) = xor (skipn n a) (skipn n b).
Proof.
  induction n as [|n IH]; intros [|x a] [|y b]; cbn [skipn]; try reflexivity.
  - destruct (skipn n a); reflexivity.
  - apply IH.
Qed.
(** The last block depends on the incomplete block and the length only. *)
Lemma last_block_behind b b' m : length b = 64%nat -> length b' = 64%nat -> last_block (b ++ m) = last_block (b' ++ m).
Proof.
  intros L L'. apply last_block_eq; [rewrite !app_length, L, L'; reflexivity|].
  intros _. rewrite !leftover_app by (rewrite ?L, ?L'; reflexivity). reflexivity.
Qed.
Lemma hmac_fields T K m h : octets K -> octets m -> 8 * N.of_nat (64 + length m) < usize_mod T ->
  sha256_update T sha256_new (inner_text K m) = Ret (inner h) ->
  sha256_update T sha256_new (xor (Spec.Hmac.block_key K) Spec.Hmac.opad) = Ret (outer h) ->
  exists h', hmac_digest T h = Ret (Spec.Hmac.hmac K m, h') /\
    flat_map (be_octets 4) (sha_h (inner h')) = Spec.Partner.inner_hash K m /\
    flat_map (be_octets 4) (sha_h (outer h')) = Spec.Hmac.hmac K m /\
    sha_buffer (inner h') = last_block (repeat 0 64 ++ m) /\
    sha_buffer (outer h') = Spec.Partner.inner_hash K m ++ [128] ++ repeat 0 23 ++ be_octets 8 768 /\
    sha_length (inner h') = N.of_nat (64 + length m) /\ sha_length (outer h') = 96 /\
    Sha256.state_ok (sha_h (inner h')) /\ Sha256.state_ok (sha_h (outer h')).
Proof.
  intros O Om L Ei Eo. destruct (pads_ok K O) as (Oi & Oo & Li & Lo). pose proof (big T) as B.
  destruct (hmac_digested T K m h O Om L Ei Eo) as (h' & o1 & D & Di & E1 & Do). exists h'. split; [exact D|].
  destruct (digest_message T (inner_text K m) (inner h) (Spec.Partner.inner_hash K m) (inner h')) as (_ & Ll & Bb & H & S).
  { unfold inner_text; apply octets_app; split; assumption. }
  { unfold inner_text; rewrite app_length, Li; exact L. }
  { exact Ei. }
  { exact Di. }
  assert (Lot : length (outer_text K m) = 96%nat).
  { unfold outer_text, Spec.Partner.inner_hash. rewrite app_length, Lo, Sha256Main.spec_sha256_length. reflexivity. }
  destruct (digest_message T (outer_text K m) o1 (Spec.Hmac.hmac K m) (outer h')) as (_ & Ll' & Bb' & H' & S').
  { unfold outer_text; apply octets_app; split; [assumption|apply Sha256Main.octets_spec_sha256]. }
  { rewrite Lot. lia. }
  { exact E1. }
  { exact Do. }
  split; [exact H|]. split; [exact H'|]. split; [|split; [|split; [|split; [|split; [exact S|exact S']]]]].
  - rewrite Bb. apply last_block_behind; [exact Li|apply repeat_length].
  - rewrite Bb', last_block_fits by (rewrite Lot; apply Nat.leb_le; reflexivity). rewrite Lot. unfold outer_text.
    rewrite leftover_app by (rewrite Lo; reflexivity).
    rewrite leftover_small by (unfold Spec.Partner.inner_hash; rewrite Sha256Main.spec_sha256_length; apply Nat.ltb_lt; reflexivity). reflexivity.
  - rewrite Ll. unfold inner_text. rewrite app_length, Li. reflexivity.
  - rewrite Ll', Lot. reflexivity.
Qed.
Lemma one_run T K m h0 h1 d h2 : octets K -> octets m -> 8 * N.of_nat (length K) < usize_mod T ->
  8 * N.of_nat (64 + length m) < usize_mod T ->
  hmac_new T K = Ret h0 -> hmac_update T h0 m = Ret h1 -> hmac_digest T h1 = Ret (d, h2) ->
  d = Spec.Hmac.hmac K m /\
    flat_map (be_octets 4) (sha_h (inner h2)) = Spec.Partner.inner_hash K m /\
    flat_map (be_octets 4) (sha_h (outer h2)) = Spec.Hmac.hmac K m /\
    sha_buffer (inner h2) = last_block (repeat 0 64 ++ m) /\
    sha_buffer (outer h2) = Spec.Partner.inner_hash K m ++ [128] ++ repeat 0 23 ++ be_octets 8 768 /\
    sha_length (inner h2) = N.of_nat (64 + length m) /\ sha_length (outer h2) = 96 /\
    Sha256.state_ok (sha_h (inner h2)) /\ Sha256.state_ok (sha_h (outer h2)).
Proof.
  intros O Om Lk Lm N0 N1 N2.
  destruct (hmac_object T K [m] O) as (g0 & g & E0 & E & Ei & Eo); [constructor; [exact Om|constructor]|exact Lk|..].
  { cbn [concat]. rewrite app_nil_r. exact Lm. }
  rewrite Proofs.Hmac.hmac_updates_concat in E. cbn [concat] in E, Ei. rewrite app_nil_r in E, Ei.
  rewrite N0 in E0. injection E0 as <-. rewrite N1 in E. injection E as <-.
  destruct (hmac_fields T K m h1 O Om Lm Ei Eo) as (h' & D & R). rewrite N2 in D.
  assert (d = Spec.Hmac.hmac K m /\ h2 = h') as [-> ->] by (split; congruence).
  split; [reflexivity|]. exact R.
Qed.

(** * AES *)
Lemma size_ok key :
  BlockCipher.key_size_ok key = (Nat.eqb (length key) 16 || Nat.eqb (length key) 24 || Nat.eqb (length key) 32)%bool.
Proof. unfold BlockCipher.key_size_ok. cbn [existsb]. rewrite orb_false_r, orb_assoc. reflexivity. Qed.
Lemma cipher_step_key s c : Stream.c_key (snd (Stream.cipher_step s c)) = accepted (Stream.c_key s) c.
Proof.
  destruct c as [key|d|]; cbn [Stream.cipher_step accepted].
  - rewrite size_ok. destruct (_ || _ || _)%bool; reflexivity.
  - destruct (Nat.ltb _ 16); [reflexivity|]. destruct (Stream.c_key s); reflexivity.
  - destruct (Stream.c_key s); reflexivity.
Qed.
Lemma decipher_step_key s c : Stream.d_key (snd (Stream.decipher_step s c)) = accepted (Stream.d_key s) c.
Proof.
  destruct c as [key|d|]; cbn [Stream.decipher_step accepted].
  - rewrite size_ok. destruct (_ || _ || _)%bool; reflexivity.
  - destruct (Nat.ltb _ 16); [reflexivity|]. destruct (Stream.d_key s); reflexivity.
  - destruct (Stream.strip 16 (Stream.d_held s)); reflexivity.
Qed.
Lemma run_key {S} (step : S -> Stream.call -> Stream.reply * S) (key : S -> option (list N)) :
  (forall s c, key (snd (step s c)) = accepted (key s) c) ->
  forall calls s, key (snd (Stream.run step s calls)) = fold_left accepted calls (key s).
Proof.
  intros H calls. induction calls as [|c cs IH]; intros s; [reflexivity|]. cbn [Stream.run fold_left].
  specialize (H s c). destruct (step s c) as [r s']. cbn [snd] in H. specialize (IH s').
  destruct (Stream.run step s' cs) as [rs s'']. cbn [snd] in IH |- *. rewrite IH, H. reflexivity.
Qed.

Lemma expansion_prefix k n w : exists t, Spec.Aes.KeyExpansion_from k n w = w ++ t.
Proof.
  induction n as [|n [t IH]]; [exists []; symmetry; apply app_nil_r|].
  cbn [Spec.Aes.KeyExpansion_from]. rewrite IH. eexists. rewrite <- app_assoc. reflexivity.
Qed.
Lemma words_back L : Forall (fun g => length g = 4%nat /\ octets g) L -> flat_map (be_octets 4) (map be_num L) = concat L.
Proof.
  induction 1 as [|g L [Hl Ho] HL IH]; [reflexivity|]. cbn [map flat_map concat]. rewrite IH. f_equal.
  rewrite <- Hl. apply be_octets_be_num, Ho.
Qed.
Lemma key_words key : octets key -> Spec.Aes.valid_key_size key ->
  flat_map (be_octets 4) (firstn (length key / 4) (map be_num (Spec.Aes.KeyExpansion key))) = key.
Proof.
  intros O V. unfold Spec.Aes.KeyExpansion. destruct (expansion_prefix (Spec.Aes.Nk key) (4 * (Spec.Aes.Nr key + 1) - Spec.Aes.Nk key) (blocks 4 key)) as [t ->].
  rewrite firstn_map. rewrite firstn_app, (blocks_length 4 key) by discriminate. rewrite Nat.sub_diag. cbn [firstn]. rewrite app_nil_r.
  rewrite firstn_all2 by (rewrite blocks_length by discriminate; lia).
  rewrite words_back.
  - apply blocks_concat; [discriminate|]. destruct V as [-> | [-> | ->]]; reflexivity.
  - apply Forall_forall. intros g Hg. split; [eapply blocks_all_length; eassumption|eapply octets_blocks; eassumption].
Qed.
Lemma holds_key a key : Proofs.Aes.holds a (Some key) ->
  exists w, Model.Aes.round_keys a = Some w /\ flat_map (be_octets 4) (firstn (length key / 4) w) = key.
Proof. intros (-> & O & V). eexists. split; [reflexivity|]. apply key_words; assumption. Qed.
