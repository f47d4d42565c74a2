(** The number of steps of AES, padding and AES-CBC. *)
From Coq Require Import ZArith NArith List Arith Lia Bool ZifyBool ZifyNat ZifyN.
From Verif Require Import Rust.
From Verif.Model Require Aes Pkcs7 AesCbc.
From Verif.Leak Require Ops Steps Aes Pkcs7 AesCbc Calls.
From Verif.Spec Require Stream Leakage.
From Verif.Proofs Require Import Base Leak LeakErase LeakUnpad.
From Verif.Proofs Require Import Cost.
Import ListNotations.
Import Leak.Steps.
Local Open Scope N_scope.
Ltac Zify.zify_post_hook ::= Z.div_mod_to_equations.

(** * Loops whose rounds differ *)
Fixpoint sum_n (n : nat) (i : N) (k : N -> N) : N :=
  match n with
  | O => 0
  | S n' => 1 + k i + sum_n n' (N.succ i) k
  end.
Lemma sp_for_n_sum {St} (R : St -> Prop) (k : N -> N) b n : 
  (forall i s, R s -> spends R (k i) (b i s)) ->
  forall i s, R s -> spends R (1 + sum_n n i k) (Ops.for_n n i b s).
Proof.
  intros Hb. induction n as [|n IH]; intros i s Hs; cbn [Ops.for_n sum_n].
  - apply (sp_emit _ 0 (Ops.Branch false)). apply sp_ret, Hs.
  - apply (sp_eq _ (1 + (k i + (1 + sum_n n (N.succ i) k)))); [lia|]. apply (sp_emit _ _ (Ops.Branch true)).
    eapply sp_bind; [apply Hb, Hs|]. intros s' Hs'. apply IH, Hs'.
Qed.
Lemma sp_for_n_rev {St} (R : St -> Prop) k n b :
  (forall i s, R s -> spends R k (b i s)) ->
  forall i s, R s -> spends R (1 + N.of_nat n * (1 + k)) (Ops.for_n_rev n i b s).
Proof.
  intros Hb. induction n as [|n IH]; intros i s Hs; cbn [Ops.for_n_rev].
  - apply (sp_eq _ (1 + 0)); [lia|]. apply (sp_emit _ 0 (Ops.Branch false)). apply sp_ret, Hs.
  - apply (sp_eq _ (1 + (k + (1 + N.of_nat n * (1 + k))))); [lia|]. apply (sp_emit _ _ (Ops.Branch true)).
    eapply sp_bind; [apply Hb, Hs|]. intros s' Hs'. apply IH, Hs'.
Qed.

(** * The field *)
Lemma sp_double b : spends anyv 1 (Leak.Aes.double b).
Proof.
  unfold Leak.Aes.double. apply (sp_eq _ (1 + 0)); [reflexivity|].
  apply sp_branch; intros _; apply sp_ret; exact I.
Qed.

(** Three steps for each bit of the multiplier. *)
Lemma sp_mul_loop fuel : forall by_ r power,
  N.size_nat by_ = fuel ->
  spends anyv (1 + 3 * N.of_nat fuel)
    (Ops.while_loop fuel (fun '(by_, _, _) => negb (by_ =? 0))
      (fun '(by_, r, power) =>
         Ops.bind (Ops.branch (negb (N.land by_ 1 =? 0)) (Ops.Ret (N.lxor r power)) (Ops.Ret r)) (fun r =>
         Ops.bind (Leak.Aes.double power) (fun power => Ops.Ret (shr by_ 1, r, power))))
      (by_, r, power)).
Proof.
  induction fuel as [|n IH]; intros x r power Hf; cbn [Ops.while_loop].
  - assert (x = 0) as -> by (destruct x as [|[p|p|]]; [reflexivity|discriminate Hf..]).
    apply (sp_eq _ (1 + 0)); [reflexivity|]. apply sp_branch; [discriminate|]. intros _. apply sp_ret. exact I.
  - assert (Hx : x <> 0) by (intros ->; discriminate Hf).
    apply (sp_eq _ (1 + ((1 + 0) + (1 + 0) + (1 + 3 * N.of_nat n)))); [lia|]. apply sp_branch.
    + intros _. eapply (sp_bind (fun st => N.size_nat (fst (fst st)) = n)).
      * eapply (sp_bind anyv). { apply sp_branch; intros _; apply sp_ret; exact I. }
        intros r' _. eapply (sp_bind anyv _ 1 0); [apply sp_double|]. intros p' _. apply sp_ret.
        cbn [fst]. unfold shr. change 1 with (N.succ 0) at 1. 
        destruct x as [|[p|p|]]; [contradiction|..]; cbn in Hf |- *; congruence.
      * intros [[x' r'] p'] H'. cbn [fst] in H'. apply IH, H'.
    + intros Hc. destruct (N.eqb_spec x 0); [contradiction|discriminate].
Qed.
Lemma sp_mul b by_ : spends anyv (1 + 3 * N.of_nat (N.size_nat by_)) (Leak.Aes.mul b by_).
Proof.
  unfold Leak.Aes.mul. apply (sp_eq _ (1 + 3 * N.of_nat (N.size_nat by_) + 0)); [lia|].
  eapply sp_bind; [apply sp_mul_loop; reflexivity|]. intros [[x r] p] _. apply sp_ret. exact I.
Qed.

Lemma sp_mul_2 b : spends anyv 7 (Leak.Aes.mul b 2).
Proof. apply (sp_eq _ _ _ _ (eq_refl : 1 + 3 * N.of_nat (N.size_nat 2) = 7)), sp_mul. Qed.
Lemma sp_mul_3 b : spends anyv 7 (Leak.Aes.mul b 3).
Proof. apply (sp_eq _ _ _ _ (eq_refl : 1 + 3 * N.of_nat (N.size_nat 3) = 7)), sp_mul. Qed.
Lemma sp_mul_e b : spends anyv 13 (Leak.Aes.mul b 0x0e).
Proof. apply (sp_eq _ _ _ _ (eq_refl : 1 + 3 * N.of_nat (N.size_nat 0x0e) = 13)), sp_mul. Qed.
Lemma sp_mul_b b : spends anyv 13 (Leak.Aes.mul b 0x0b).
Proof. apply (sp_eq _ _ _ _ (eq_refl : 1 + 3 * N.of_nat (N.size_nat 0x0b) = 13)), sp_mul. Qed.
Lemma sp_mul_d b : spends anyv 13 (Leak.Aes.mul b 0x0d).
Proof. apply (sp_eq _ _ _ _ (eq_refl : 1 + 3 * N.of_nat (N.size_nat 0x0d) = 13)), sp_mul. Qed.
Lemma sp_mul_9 b : spends anyv 13 (Leak.Aes.mul b 0x09).
Proof. apply (sp_eq _ _ _ _ (eq_refl : 1 + 3 * N.of_nat (N.size_nat 0x09) = 13)), sp_mul. Qed.

(** * Rounds *)
Definition square (s : list (list N)) : Prop := length s = 4%nat /\ Forall (fun c => length c = 4%nat) s.

Lemma sp_map_any {A B} (R : B -> Prop) k (f : A -> Ops.res B) l n :
  (forall x, spends R k (f x)) -> len l = n ->
  spends (fun ys => Forall R ys /\ length ys = length l) (1 + n * (1 + k)) (Ops.map_res f l).
Proof.
  intros Hf <-. apply (sp_map_res anyv R); [intros; apply Hf|]. apply Forall_forall. intros; exact I.
Qed.
Lemma sp_sub_bytes f s : (forall b, spends anyv 1 (f b)) -> square s ->
  spends square 41 (Leak.Aes.sub_bytes f s).
Proof.
  intros Hf [Hl Hs]. unfold Leak.Aes.sub_bytes.
  eapply sp_weaken; [|apply (sp_eq _ (1 + len s * (1 + 9)))].
  2:{ unfold len. rewrite Hl. reflexivity. }
  2:{ apply (sp_map_res (fun c => length c = 4%nat) (fun c => length c = 4%nat)); [|exact Hs].
      intros c Hc. eapply sp_weaken; [|apply (sp_eq _ (1 + 4 * (1 + 1))); [reflexivity|]].
      2:{ apply (sp_map_any anyv 1); [exact Hf|unfold len; rewrite Hc; reflexivity]. }
      cbn beta. intros a [_ Ha]. congruence. }
  cbn beta. intros a [Ha Ha']. split; [congruence|exact Ha].
Qed.
Lemma sp_sbox b : spends anyv 1 (Leak.Aes.enc_lookup_sbox b).
Proof. eapply sp_weaken; [|apply sp_idx]. intros; exact I. Qed.
Lemma sp_inv_sbox b : spends anyv 1 (Leak.Aes.dec_lookup_sbox b).
Proof. eapply sp_weaken; [|apply sp_idx]. intros; exact I. Qed.

Lemma sp_enc_mix c : spends (fun c => length c = 4%nat) 56 (Leak.Aes.enc_mix_column c).
Proof.
  unfold Leak.Aes.enc_mix_column. destruct c as [|c0 [|c1 [|c2 [|c3 [|c4 cs]]]]]; try exact (sp_panic _ _).
  apply (sp_eq _ (7 + (7 + (7 + (7 + (7 + (7 + (7 + (7 + 0))))))))); [reflexivity|].
  do 4 (eapply sp_bind; [apply sp_mul_2|intros ? _]; eapply sp_bind; [apply sp_mul_3|intros ? _]). apply sp_ret. reflexivity.
Qed.
Lemma sp_dec_mix_byte a b c d : spends anyv 52 (Leak.Aes.dec_mix_byte a b c d).
Proof.
  unfold Leak.Aes.dec_mix_byte. apply (sp_eq _ (13 + (13 + (13 + (13 + 0))))); [reflexivity|].
  eapply sp_bind; [apply sp_mul_e|intros ? _]. eapply sp_bind; [apply sp_mul_b|intros ? _].
  eapply sp_bind; [apply sp_mul_d|intros ? _]. eapply sp_bind; [apply sp_mul_9|intros ? _]. apply sp_ret. exact I.
Qed.
Lemma sp_dec_mix c : spends (fun c => length c = 4%nat) 208 (Leak.Aes.dec_mix_column c).
Proof.
  unfold Leak.Aes.dec_mix_column. destruct c as [|c0 [|c1 [|c2 [|c3 [|c4 cs]]]]]; try exact (sp_panic _ _).
  apply (sp_eq _ (52 + (52 + (52 + (52 + 0))))); [reflexivity|].
  do 4 (eapply sp_bind; [apply sp_dec_mix_byte|intros ? _]). apply sp_ret. reflexivity.
Qed.
Lemma sp_mix_columns f k s : (forall c, spends (fun c => length c = 4%nat) k (f c)) -> square s ->
  spends square (5 + 4 * k) (Leak.Aes.mix_columns f s).
Proof.
  intros Hf [Hl Hs]. unfold Leak.Aes.mix_columns.
  eapply sp_weaken; [|apply (sp_eq _ (1 + 4 * (1 + k))); [lia|]].
  2:{ apply sp_map_any; [exact Hf|unfold len; rewrite Hl; reflexivity]. }
  cbn beta. intros a [Ha Ha']. split; [congruence|exact Ha].
Qed.
Lemma sp_enc_shift s : spends square 0 (Leak.Aes.enc_shift_rows s).
Proof.
  unfold Leak.Aes.enc_shift_rows.
  do 5 (destruct s as [|[|? [|? [|? [|? [|]]]]] s]; try exact (sp_panic _ _)).
  all: apply sp_ret; split; [reflexivity|repeat constructor].
Qed.
Lemma sp_dec_shift s : spends square 0 (Leak.Aes.dec_shift_rows s).
Proof.
  unfold Leak.Aes.dec_shift_rows.
  do 5 (destruct s as [|[|? [|? [|? [|? [|]]]]] s]; try exact (sp_panic _ _)).
  all: apply sp_ret; split; [reflexivity|repeat constructor].
Qed.
Lemma sp_to_block b : spends square 0 (Leak.Aes.to_block b).
Proof.
  unfold Leak.Aes.to_block. do 17 (destruct b as [|? b]; try exact (sp_panic _ _)).
  apply sp_ret; split; [reflexivity|repeat constructor].
Qed.
Lemma sp_from_block s : spends (fun b => length b = 16%nat) 0 (Leak.Aes.from_block s).
Proof.
  unfold Leak.Aes.from_block.
  do 5 (destruct s as [|[|? [|? [|? [|? [|]]]]] s]; try exact (sp_panic _ _)).
  all: apply sp_ret; reflexivity.
Qed.
Lemma sp_ark_col c k : spends (fun c => length c = 4%nat) 0 (Leak.Aes.add_round_key_col c k).
Proof.
  unfold Leak.Aes.add_round_key_col. destruct c as [|c0 [|c1 [|c2 [|c3 [|c4 cs]]]]]; try exact (sp_panic _ _).
  apply sp_ret. reflexivity.
Qed.
Lemma sp_ark s : Forall (fun c => length c = 4%nat) s -> forall k, length k = length s ->
  spends (fun s' => length s' = length s /\ Forall (fun c => length c = 4%nat) s') (1 + len s)
    (Leak.Aes.add_round_key s k).
Proof.
  induction 1 as [|c s Hc Hs IH]; intros [|w k] Hk; try discriminate Hk; cbn [Leak.Aes.add_round_key].
  - apply (sp_emit _ 0 (Ops.Branch false)), sp_ret. split; [reflexivity|constructor].
  - apply (sp_eq _ (1 + (0 + ((1 + len s) + 0)))); [unfold len; cbn [length]; lia|].
    apply (sp_emit _ _ (Ops.Branch true)). eapply sp_bind; [apply sp_ark_col|]. intros c' Hc'. cbn beta in Hc'.
    eapply sp_bind; [apply IH; cbn in Hk; congruence|]. intros s' [Hl Hs']. apply sp_ret. cbn [length].
    split; [congruence|constructor; assumption].
Qed.
Lemma sp_ark4 s k : square s -> len k = 4 -> spends square 5 (Leak.Aes.add_round_key s k).
Proof.
  intros [Hl Hs] Hk. eapply sp_weaken; [|apply (sp_eq _ (1 + len s))].
  2:{ unfold len. rewrite Hl. reflexivity. }
  2:{ apply sp_ark; [exact Hs|]. unfold len in Hk. lia. }
  cbn beta. intros s' [Hl' Hs']. split; [congruence|exact Hs'].
Qed.

(** A keyed object. *)
Definition has_schedule (nr : N) (a : Model.Aes.AES) : Prop :=
  Model.Aes.round_count a = nr /\ exists w, Model.Aes.round_keys a = Some w /\ len w = 4 * (nr + 1).
Definition block_result (r : result (list N) Model.Aes.AESError) : Prop :=
  exists b, r = Ok b /\ length b = 16%nat.

Lemma sp_key_at w a b : b - a = 4 -> spends (fun k => len k = 4) 1 (Ops.slice (A := N) w a b).
Proof. intros H. eapply sp_weaken; [|apply sp_slice]. cbn beta. intros; congruence. Qed.

Definition enc_steps (nr : N) : N := 55 + (nr - 1) * 277.
Lemma sp_encrypt nr a b : has_schedule nr a -> spends block_result (enc_steps nr) (Leak.Aes.aes_encrypt a b).
Proof.
  intros (Hn & w & Hw & Hl). unfold Leak.Aes.aes_encrypt. rewrite Hn, Hw.
  unfold enc_steps. change Model.Aes.NB with 4.
  apply (sp_eq _ (0 + (1 + (1 + (5 + ((1 + (nr - 1) * (1 + 276)) + (41 + (0 + (1 + (5 + (0 + 0))))))))))); [lia|].
  eapply sp_bind; [apply sp_to_block|]. intros s Hs. apply (sp_emit _ _ (Ops.Branch true)).
  eapply sp_bind; [apply sp_key_at; reflexivity|]. intros k Hk.
  eapply sp_bind; [apply sp_ark4; assumption|]. clear s Hs k Hk. intros s Hs.
  eapply sp_bind.
  { apply (sp_for_range square); [exact Hs|]. clear s Hs. intros i s Hs.
    apply (sp_eq _ (41 + (0 + ((5 + 4 * 56) + (1 + 5))))); [reflexivity|].
    eapply sp_bind; [apply sp_sub_bytes; [apply sp_sbox|exact Hs]|]. clear s Hs. intros s Hs.
    eapply sp_bind; [apply sp_enc_shift|]. clear s Hs. intros s Hs.
    eapply sp_bind; [apply sp_mix_columns; [apply sp_enc_mix|exact Hs]|]. clear s Hs. intros s Hs.
    eapply sp_bind; [apply sp_key_at; lia|]. intros k Hk. apply sp_ark4; assumption. }
  clear s Hs. intros s Hs.
  eapply sp_bind; [apply sp_sub_bytes; [apply sp_sbox|exact Hs]|]. clear s Hs. intros s Hs.
  eapply sp_bind; [apply sp_enc_shift|]. clear s Hs. intros s Hs.
  eapply sp_bind; [apply sp_key_at; rewrite Hl; lia|]. intros k Hk.
  eapply sp_bind; [apply sp_ark4; assumption|]. clear s Hs k Hk. intros s Hs.
  eapply sp_bind; [apply sp_from_block|]. intros o Ho. apply sp_ret. exists o. split; [reflexivity|exact Ho].
Qed.

Definition dec_steps (nr : N) : N := 55 + (nr - 1) * 885.
Lemma sp_decrypt nr a b : has_schedule nr a -> spends block_result (dec_steps nr) (Leak.Aes.aes_decrypt a b).
Proof.
  intros (Hn & w & Hw & Hl). unfold Leak.Aes.aes_decrypt. rewrite Hn, Hw.
  unfold dec_steps. change Model.Aes.NB with 4.
  apply (sp_eq _ (0 + (1 + (1 + (5 + ((1 + (nr - 1) * (1 + 884)) + (0 + (41 + (1 + (5 + (0 + 0))))))))))); [lia|].
  eapply sp_bind; [apply sp_to_block|]. intros s Hs. apply (sp_emit _ _ (Ops.Branch true)).
  eapply sp_bind; [apply sp_key_at; rewrite Hl; lia|]. intros k Hk.
  eapply sp_bind; [apply sp_ark4; assumption|]. clear s Hs k Hk. intros s Hs.
  eapply sp_bind.
  { unfold Ops.for_range_rev. apply (sp_eq _ (1 + N.of_nat (N.to_nat (nr - 1)) * (1 + 884))); [lia|].
    apply (sp_for_n_rev square); [|exact Hs]. clear s Hs. intros i s Hs.
    apply (sp_eq _ (0 + (41 + (1 + (5 + (5 + 4 * 208)))))); [reflexivity|].
    eapply sp_bind; [apply sp_dec_shift|]. clear s Hs. intros s Hs.
    eapply sp_bind; [apply sp_sub_bytes; [apply sp_inv_sbox|exact Hs]|]. clear s Hs. intros s Hs.
    eapply sp_bind; [apply sp_key_at; lia|]. intros k Hk.
    eapply sp_bind; [apply sp_ark4; assumption|]. clear s Hs k Hk. intros s Hs.
    apply sp_mix_columns; [apply sp_dec_mix|exact Hs]. }
  clear s Hs. intros s Hs.
  eapply sp_bind; [apply sp_dec_shift|]. clear s Hs. intros s Hs.
  eapply sp_bind; [apply sp_sub_bytes; [apply sp_inv_sbox|exact Hs]|]. clear s Hs. intros s Hs.
  eapply sp_bind; [apply sp_key_at; reflexivity|]. intros k Hk.
  eapply sp_bind; [apply sp_ark4; assumption|]. clear s Hs k Hk. intros s Hs.
  eapply sp_bind; [apply sp_from_block|]. intros o Ho. apply sp_ret. exists o. split; [reflexivity|exact Ho].
Qed.

(** * Key setup *)
Lemma sp_sub_word w : spends anyv 4 (Leak.Aes.sub_word w).
Proof.
  unfold Leak.Aes.sub_word. apply (sp_eq _ (1 + (1 + (1 + (1 + 0))))); [reflexivity|].
  do 4 (eapply sp_bind; [apply sp_idx|intros ? _]). apply sp_ret. exact I.
Qed.
Definition word_steps (nk i : N) : N :=
  if i mod nk =? 0 then 8 else if (6 <? nk) && (i mod nk =? 4) then 8 else 4.
Lemma sp_expand key rc :
  let nk := len key / 4 in
  spends anyv (1 + 5 * nk + (1 + sum_n (N.to_nat (4 * (rc + 1) - nk)) nk (word_steps nk)))
    (Leak.Aes.expand_key key rc).
Proof.
  intros nk. unfold Leak.Aes.expand_key. fold nk. change Model.Aes.NB with 4.
  eapply (sp_bind anyv).
  { apply (sp_eq _ (1 + (nk - 0) * (1 + 4))); [lia|]. apply (sp_for_range anyv); [exact I|]. intros i w _.
    apply (sp_eq _ (1 + (1 + (1 + (1 + 0))))); [reflexivity|].
    do 4 (eapply sp_bind; [apply sp_idx|intros ? _]). apply sp_ret. exact I. }
  intros w _. unfold Ops.for_range. apply (sp_for_n_sum anyv); [|exact I]. clear w. intros i w _.
  unfold word_steps. set (body := if i mod nk =? 0 then _ else _).
  apply (sp_eq _ (1 + (0 + ((body - 2) + (1 + 0))))).
  { subst body. destruct (i mod nk =? 0); [lia|]. destruct ((6 <? nk) && (i mod nk =? 4))%bool; lia. }
  eapply sp_bind; [apply sp_idx|]. intros t _.
  eapply sp_bind; [apply sp_urem|]. intros m ->.
  eapply (sp_bind anyv).
  { subst body. destruct (i mod nk =? 0) eqn:E.
    - apply (sp_eq _ (1 + (0 + (4 + (1 + 0))))); [reflexivity|]. apply sp_branch; [intros _|discriminate].
      eapply sp_bind; [apply sp_udiv|]. intros q _.
      eapply sp_bind; [apply sp_sub_word|]. intros s _.
      eapply sp_bind; [apply sp_idx|]. intros c _. apply sp_ret. exact I.
    - destruct ((6 <? nk) && (i mod nk =? 4))%bool eqn:E'.
      + apply (sp_eq _ (1 + (1 + 4))); [reflexivity|]. apply sp_branch; [discriminate|intros _].
        apply sp_branch; [intros _|discriminate]. apply sp_sub_word.
      + apply (sp_eq _ (1 + (1 + 0))); [reflexivity|]. apply sp_branch; [discriminate|intros _].
        apply sp_branch; [discriminate|intros _]. apply sp_ret. exact I. }
  intros t' _. eapply sp_bind; [apply sp_idx|]. intros p _. apply sp_ret. exact I.
Qed.

Definition init_steps (n : N) : N := if n =? 16 then 263 else if n =? 24 then 295 else if n =? 32 then 355 else 1.
Definition rounds (n : N) : N := n / 4 + 6.
Lemma expand_key_len key rc w : Model.Aes.expand_key key rc = Ret w -> len key / 4 <= 4 * (rc + 1) ->
  len w = 4 * (rc + 1).
Proof.
  unfold Model.Aes.expand_key. set (nk := len key / 4). change Model.Aes.NB with 4. intros H Hb.
  assert (L : forall (body : N -> list N -> res (list N)),
    (forall i s s', body i s = Ret s' -> length s' = S (length s)) ->
    forall n i s s', for_n n i body s = Ret s' -> length s' = (n + length s)%nat).
  { intros body Hbody. induction n as [|n IH]; intros i s s' E; cbn [for_n] in E; [injection E as <-; reflexivity|].
    destruct (body i s) as [t| |] eqn:E1; try discriminate E. cbn [bind] in E.
    apply IH in E. apply Hbody in E1. lia. }
  unfold for_range in H. 
  match type of H with bind ?m _ = _ => destruct m as [w0| |] eqn:E0; try discriminate H end.
  cbn [bind] in H. apply L in E0; [|clear]. 
  - apply L in H; [|clear].
    + unfold len. rewrite H, E0. unfold len in *. cbn [length]. lia.
    + intros i s s' E. destruct (idx s (i - 1)) as [t| |]; try discriminate E. cbn [bind] in E.
      destruct (urem i nk) as [m| |]; try discriminate E. cbn [bind] in E.
      match type of E with bind ?m _ = _ => destruct m as [t'| |]; try discriminate E end. cbn [bind] in E.
      destruct (idx s (i - nk)) as [p| |]; try discriminate E. cbn [bind] in E.
      injection E as <-. rewrite app_length. cbn [length]. lia.
  - intros i s s' E.
    do 4 (match type of E with bind ?m _ = _ => destruct m as [?| |]; try discriminate E end; cbn [bind] in E).
    injection E as <-. rewrite app_length. cbn [length]. lia.
Qed.

Lemma sp_refine {A} (R S : A -> Prop) k m : spends R k m -> (forall a, Ops.outcome m = Ret a -> S a) -> spends S k m.
Proof. intros H HS a E. destruct (H a E). auto. Qed.

Lemma sp_init a key :
  spends (fun ra => (len key = 16 \/ len key = 24 \/ len key = 32) -> fst ra = Ok tt /\ has_schedule (rounds (len key)) (snd ra))
    (init_steps (len key)) (Leak.Aes.aes_init a key).
Proof.
  unfold Leak.Aes.aes_init.
  assert (K : forall nk rc k, len key / 4 = nk -> nk <= 4 * (rc + 1) -> rc = rounds (len key) ->
    1 + (1 + 5 * nk + (1 + sum_n (N.to_nat (4 * (rc + 1) - nk)) nk (word_steps nk)) + 0) = k ->
    spends (fun ra => (len key = 16 \/ len key = 24 \/ len key = 32) ->
              fst ra = Ok tt /\ has_schedule (rounds (len key)) (snd ra)) k
      (Ops.bind (Ops.emit (Ops.Branch true)) (fun _ => Ops.bind (Leak.Aes.expand_key key rc)
        (fun w => Ops.Ret (@Ok unit Model.Aes.AESError tt, Model.Aes.mkAES rc (Some w)))))).
  { intros nk rc k Hnk Hle Hrc <-. apply (sp_emit _ _ (Ops.Branch true)).
    eapply (sp_bind (fun w => len w = 4 * (rc + 1))).
    - eapply sp_refine; [rewrite <- Hnk; apply sp_expand|]. intros w E.
      rewrite expand_key_er in E. eapply expand_key_len; [exact E|lia].
    - intros w Hw. apply sp_ret. intros _. split; [reflexivity|]. cbn [snd]. rewrite <- Hrc.
      split; [reflexivity|]. exists w. split; [reflexivity|exact Hw]. }
  destruct (N.eq_dec (len key) 16) as [E|E16]; [rewrite E in *; apply (K 4); reflexivity || (cbn; discriminate)|].
  destruct (N.eq_dec (len key) 24) as [E|E24]; [rewrite E in *; apply (K 6); reflexivity || (cbn; discriminate)|].
  destruct (N.eq_dec (len key) 32) as [E|E32]; [rewrite E in *; apply (K 8); reflexivity || (cbn; discriminate)|].
  clear K. unfold init_steps.
  rewrite (proj2 (N.eqb_neq _ _) E16), (proj2 (N.eqb_neq _ _) E24), (proj2 (N.eqb_neq _ _) E32).
  assert (X : match len key with 16 => Some 10 | 24 => Some 12 | 32 => Some 14 | _ => None end = None).
  { destruct (len key) as [|p]; [reflexivity|].
    do 6 (destruct p as [p|p|]; try reflexivity; try congruence). }
  rewrite X. apply (sp_eq _ (1 + 0)); [reflexivity|]. apply (sp_emit _ _ (Ops.Branch false)). apply sp_ret.
  intros [?|[?|?]]; contradiction.
Qed.

(** * Padding, with blocks of 16 *)
Lemma sp_split_off {A} (l : list A) n :
  spends (fun xy => len (fst xy) = n /\ len (snd xy) = len l - n) 1 (Ops.split_off l n).
Proof.
  apply (sp_emit_lift _ (Ops.Range n (len l))). intros [x y] H. unfold split_off in H.
  destruct (N.leb_spec n (len l)) as [Hn|]; [|discriminate H]. injection H as <- <-. cbn [fst snd].
  unfold len in *. rewrite firstn_length, skipn_length. lia.
Qed.
Definition stores (s : N) (p : Model.Pkcs7.Pad) : Prop :=
  Model.Pkcs7.pad_block_size p = 16 /\ len (Model.Pkcs7.pad_storage p) = s.
Definition stores' (s : N) (p : Model.Pkcs7.Unpad) : Prop :=
  Model.Pkcs7.unpad_block_size p = 16 /\ len (Model.Pkcs7.unpad_storage p) = s.

Lemma sp_pad_new T : spends (stores 0) 1 (Leak.Pkcs7.pad_new T 16).
Proof.
  unfold Leak.Pkcs7.pad_new. apply (sp_eq _ (0 + (1 + 0))); [reflexivity|].
  eapply (sp_bind anyv); [apply sp_lift; intros; exact I|]. intros c _.
  eapply sp_bind; [apply sp_alloc|]. intros _ _. apply sp_ret. split; reflexivity.
Qed.
Lemma sp_unpad_new T : spends (stores' 0) 1 (Leak.Pkcs7.unpad_new T 16).
Proof.
  unfold Leak.Pkcs7.unpad_new. apply (sp_eq _ (0 + (1 + 0))); [reflexivity|].
  eapply (sp_bind anyv); [apply sp_lift; intros; exact I|]. intros c _.
  eapply sp_bind; [apply sp_alloc|]. intros _ _. apply sp_ret. split; reflexivity.
Qed.

Definition pad_out (n : N) (o : option (list N)) : Prop :=
  match o with None => n < 16 | Some l => 16 <= n /\ len l = 16 * (n / 16) end.
Lemma sp_pad_write T p s buf : stores s p ->
  let n := s + len buf in
  spends (fun op => pad_out n (fst op) /\ stores (n mod 16) (snd op))
    (len buf + 1 + (if n <? 16 then 0 else 1 + n mod 16)) (Leak.Pkcs7.pad_write T p buf).
Proof.
  intros [Hb Hs] n. unfold Leak.Pkcs7.pad_write. rewrite Hb.
  apply (sp_eq _ (len buf + (1 + (if n <? 16 then 0 else 1 + n mod 16)))); [lia|].
  eapply (sp_bind (fun st => len st = n)).
  { apply sp_run. rewrite len_app, Hs. reflexivity. }
  intros st Hst. cbn beta in Hst. rewrite Hst. apply sp_branch; intros Hc; rewrite Hc.
  - apply sp_ret. cbn [fst snd]. split; [cbn; lia|]. split; [reflexivity|]. cbn. rewrite Hst. lia.
  - apply (sp_eq _ (0 + (0 + (1 + (n mod 16 + 0))))); [lia|].
    eapply sp_bind; [apply sp_urem|]. intros t ->.
    eapply sp_bind; [apply sp_usub; lia|]. intros pos ->.
    eapply sp_bind; [apply sp_split_off|]. intros [h tl] [Hh Ht]. cbn [fst snd] in Hh, Ht.
    rewrite Hst in Ht. assert (Et : len tl = n mod 16) by lia.
    rewrite <- Et at 1. eapply (sp_bind (fun st => len st = n mod 16)); [apply sp_run; exact Et|].
    intros st' Hst'. apply sp_ret. cbn [fst snd]. split; [cbn [pad_out]; lia|]. split; [reflexivity|exact Hst'].
Qed.

Lemma sp_push x fuel : forall st : list N, len st <= 16 ->
  spends (fun st' => len st' = 16) (17 - len st)
    (Ops.while_loop fuel (fun st => len st <? 16) (fun st => Ops.Ret (st ++ [x])) st).
Proof.
  induction fuel as [|f IH]; intros st Hst; cbn [Ops.while_loop].
  - destruct (N.ltb_spec (len st) 16) as [H|H].
    + intros a E. discriminate E.
    + apply (sp_eq _ (1 + 0)); [lia|]. apply sp_branch; [discriminate|]. intros _. apply sp_ret. lia.
  - apply (sp_eq _ (1 + (16 - len st))); [lia|]. apply sp_branch; intros Hc.
    + apply (sp_eq _ (0 + (16 - len st))); [lia|].
      eapply (sp_bind (fun st' => len st' = len st + 1)).
      { apply sp_ret. rewrite len_app. reflexivity. }
      intros st' H'. apply (sp_eq _ (17 - len st')); [lia|]. apply IH. lia.
    + apply (sp_eq _ 0); [lia|]. apply sp_ret. lia.
Qed.
Lemma sp_pad_flush T p s : stores s p -> s <= 16 ->
  spends (fun bp => len (fst bp) = 16 /\ stores 0 (snd bp)) (17 - s) (Leak.Pkcs7.pad_flush T p).
Proof.
  intros [Hb Hs] Hle. unfold Leak.Pkcs7.pad_flush. rewrite Hb, Hs.
  apply (sp_eq _ (0 + ((17 - s) + 0))); [lia|].
  eapply sp_bind; [apply sp_usub; exact Hle|]. intros n _. rewrite <- Hs.
  eapply sp_bind; [apply sp_push; lia|]. intros st Hst. apply sp_ret. cbn [fst snd].
  split; [exact Hst|]. split; reflexivity.
Qed.

(** * CBC *)
Lemma sp_try {A St E} (P : A -> Prop) (R : St -> Prop) k b l :
  (forall x s, P x -> R s -> spends (fun rs => fst rs = Ok tt /\ R (snd rs)) k (b x s)) -> Forall P l ->
  forall s, R s -> spends (fun rs => fst rs = @Ok unit E tt /\ R (snd rs)) (1 + len l * (2 + k)) (Ops.for_each_try l b s).
Proof.
  intros Hb Hl. induction Hl as [|x l Hx Hl IH]; intros s Hs; cbn [Ops.for_each_try].
  - apply (sp_eq _ (1 + 0)); [unfold len; cbn; lia|]. apply (sp_emit _ 0 (Ops.Branch false)). apply sp_ret.
    split; [reflexivity|exact Hs].
  - apply (sp_eq _ (1 + (k + (1 + (1 + len l * (2 + k)))))); [unfold len; cbn [length]; lia|].
    apply (sp_emit _ _ (Ops.Branch true)).
    eapply sp_bind; [apply Hb; assumption|]. intros [r s'] [Hr Hs']. cbn [fst snd] in Hr, Hs'. subst r.
    apply (sp_emit _ _ (Ops.Branch true)). apply IH, Hs'.
Qed.
Lemma sp_chunks16 (l : list N) q : len l = 16 * q ->
  spends (fun cs => len cs = q /\ Forall (fun c => len c = 16) cs) (16 * q) (Ops.chunks l 16).
Proof.
  intros Hl. unfold Ops.chunks. rewrite Hl.
  apply (sp_eq _ (16 * q + 0)); [lia|]. apply (sp_emit _ 0 (Ops.Run (16 * q))). apply sp_lift.
  assert (El : length l = (N.to_nat q * 16)%nat) by (unfold len in Hl; lia).
  rewrite chunks_blocks; [|discriminate|rewrite El; apply Nat.mod_mul; discriminate].
  intros a E. injection E as <-. change (N.to_nat 16) with 16%nat. split.
  - unfold len. rewrite blocks_length, El, Nat.div_mul by discriminate. lia.
  - apply Forall_forall. intros c Hc. apply blocks_all_length in Hc. unfold len. rewrite Hc. reflexivity.
Qed.

Record cipher_at (nr s : N) (c : Model.AesCbc.Cipher) : Prop := {
  ca_key : has_schedule nr (Model.AesCbc.c_aes c);
  ca_pad : stores s (Model.AesCbc.c_pad c);
  ca_iv : len (Model.AesCbc.c_iv c) = 16 }.

Lemma sp_xor_into a b : spends (fun x => len x = len a) (N.min (len a) (len b)) (Ops.xor_into a b).
Proof. apply sp_run. unfold len. f_equal. apply xor_into_length. Qed.

Lemma sp_encrypt_block nr s c b : cipher_at nr s c -> len b = 16 ->
  spends (fun rc => block_result (fst rc) /\ cipher_at nr s (snd rc)) (33 + enc_steps nr) (Leak.AesCbc.encrypt_block c b).
Proof.
  intros [Hk Hp Hi] Hb. unfold Leak.AesCbc.encrypt_block.
  apply (sp_eq _ (16 + (16 + (enc_steps nr + (1 + 0))))); [lia|].
  eapply sp_bind; [rewrite <- Hb at 1; apply sp_copy|]. intros bl Hbl. rewrite repeat_length in Hbl.
  assert (Ebl : len bl = 16) by (unfold len; rewrite Hbl; reflexivity).
  eapply sp_bind; [eapply sp_eq; [|apply sp_xor_into]; rewrite Ebl, Hi; reflexivity|]. intros x _.
  eapply sp_bind; [apply sp_encrypt; exact Hk|]. intros r [o [-> Ho]].
  apply (sp_emit _ _ (Ops.Branch true)). apply sp_ret. cbn [fst snd]. split; [exists o; auto|].
  constructor; cbn; auto. unfold len. rewrite Ho. reflexivity.
Qed.

(** A write of [b] octets with [s] pending; a flush. *)
Definition cwrite_steps (e s b : N) : N :=
  let n := s + b in b + (if n <? 16 then 2 else 4 + n mod 16 + n / 16 * (e + 68)).
Lemma sp_cipher_write T nr s c b : cipher_at nr s c ->
  spends (fun rc => cipher_at nr ((s + len b) mod 16) (snd rc)) (cwrite_steps (enc_steps nr) s (len b))
    (Leak.AesCbc.cipher_write T c b).
Proof.
  intros [Hk Hp Hi]. unfold Leak.AesCbc.cipher_write, cwrite_steps. cbn zeta. set (n := s + len b).
  apply (sp_eq _ ((len b + 1 + (if n <? 16 then 0 else 1 + n mod 16)) +
    (1 + (if n <? 16 then 0 else 1 + n / 16 * (enc_steps nr + 68))))).
  { destruct (n <? 16); lia. }
  eapply sp_bind; [apply sp_pad_write; exact Hp|]. fold n. intros [o p] [Ho Hp']. cbn [fst snd] in Ho, Hp'.
  destruct o as [bl|]; cbn [pad_out] in Ho.
  - destruct Ho as [Hn Hl]. destruct (N.ltb_spec n 16); [lia|].
    apply (sp_eq _ (1 + (16 * (n / 16) + ((1 + n / 16 * (2 + (33 + enc_steps nr + (1 + (16 + 0))))) + 0)))); [lia|].
    apply (sp_emit _ _ (Ops.Branch true)).
    eapply sp_bind; [apply sp_chunks16; exact Hl|]. intros cs [Hq Hcs].
    eapply (sp_bind (fun rs : _ * (list N * _) => fst rs = Ok tt /\ cipher_at nr (n mod 16) (snd (snd rs)))).
    { rewrite <- Hq. apply (sp_try (fun c => len c = 16) (fun oc => cipher_at nr (n mod 16) (snd oc))); [|exact Hcs|].
      - intros x [out c'] Hx Hc'. cbn [snd] in Hc'.
        eapply sp_bind; [apply sp_encrypt_block; eassumption|]. intros [r c''] [(y & Hr & Hy) Hc'']. cbn [fst snd] in *.
        subst r. apply (sp_emit _ _ (Ops.Branch true)).
        replace (len y) with 16 by (unfold len; rewrite Hy; reflexivity).
        eapply (sp_bind anyv); [apply sp_run; exact I|]. intros out' _. apply sp_ret. split; [reflexivity|exact Hc''].
      - constructor; assumption. }
    intros [r [out c']] [Hr Hc']. cbn [fst snd] in *. subst r. apply sp_ret. exact Hc'.
  - destruct (N.ltb_spec n 16); [|lia]. apply (sp_emit _ 0 (Ops.Branch false)). apply sp_ret.
    constructor; assumption.
Qed.
Lemma sp_cipher_flush T nr s c : cipher_at nr s c -> s <= 16 ->
  spends (fun rc => cipher_at nr 0 (snd rc)) (50 - s + enc_steps nr) (Leak.AesCbc.cipher_flush T c).
Proof.
  intros [Hk Hp Hi] Hs. unfold Leak.AesCbc.cipher_flush.
  apply (sp_eq _ ((17 - s) + (33 + enc_steps nr))); [lia|].
  eapply sp_bind; [apply sp_pad_flush; eassumption|]. intros [b p] [Hb Hp']. cbn [fst snd] in *.
  eapply sp_weaken; [|apply (sp_encrypt_block nr 0); [constructor; assumption|exact Hb]].
  cbn beta. intros rc [_ H]. exact H.
Qed.

Record decipher_at (nr s u : N) (d : Model.AesCbc.Decipher) : Prop := {
  da_key : has_schedule nr (Model.AesCbc.d_aes d);
  da_buffer : stores s (Model.AesCbc.d_buffer d);
  da_unpad : stores' u (Model.AesCbc.d_unpad d);
  da_iv : len (Model.AesCbc.d_iv d) = 16 }.

(** Whole blocks given to an unpadder that holds none or one. *)
Lemma sp_unpad_write T p u buf q : stores' u p -> (u = 0 \/ u = 16) -> 1 <= q -> len buf = 16 * q ->
  spends (fun op => stores' 16 (snd op)) (16 * q + 1 + (if u + 16 * q <=? 16 then 0 else 18))
    (Leak.Pkcs7.unpad_write T p buf).
Proof.
  intros [Hb Hs] Hu Hq Hl. unfold Leak.Pkcs7.unpad_write. rewrite Hb. set (n := u + 16 * q).
  apply (sp_eq _ (16 * q + (1 + (if n <=? 16 then 0 else 18)))); [lia|].
  eapply (sp_bind (fun st => len st = n)).
  { rewrite Hl. apply sp_run. rewrite len_app, Hs, Hl. reflexivity. }
  intros st Hst. cbn beta in Hst. rewrite Hst. apply sp_branch; intros Hc; rewrite Hc.
  - apply sp_ret. cbn [snd]. split; [reflexivity|]. cbn [Model.Pkcs7.unpad_storage]. rewrite Hst. subst n. lia.
  - apply (sp_eq _ (0 + ((1 + 0) + (0 + (1 + (16 + 0)))))); [reflexivity|].
    eapply sp_bind; [apply sp_urem|]. intros t ->.
    eapply (sp_bind (fun t => t = 16)).
    { assert (E : n mod 16 =? 0 = true) by (subst n; lia). rewrite E.
      apply sp_branch; [|discriminate]. intros _. apply sp_ret. reflexivity. }
    intros t ->.
    eapply sp_bind; [apply sp_usub; lia|]. intros pos ->.
    eapply sp_bind; [apply sp_split_off|]. intros [h tl] [Hh Ht]. cbn [fst snd] in Hh, Ht.
    rewrite Hst in Ht. assert (Et : len tl = 16) by lia.
    rewrite <- Et at 1. eapply (sp_bind (fun st => len st = 16)); [apply sp_run; exact Et|].
    intros st' Hst'. apply sp_ret. cbn [snd]. split; [reflexivity|exact Hst'].
Qed.

Definition dwrite_steps (e s u b : N) : N :=
  let n := s + b in
  b + (if n <? 16 then 2
       else 6 + n mod 16 + n / 16 * (e + 83) + (if u + 16 * (n / 16) <=? 16 then 0 else 18)).
Lemma sp_decipher_write T nr s u d b : decipher_at nr s u d -> (u = 0 \/ u = 16) ->
  spends (fun rd => decipher_at nr ((s + len b) mod 16) (if s + len b <? 16 then u else 16) (snd rd))
    (dwrite_steps (dec_steps nr) s u (len b)) (Leak.AesCbc.decipher_write T d b).
Proof.
  intros [Hk Hp Hu Hi] Hu16. unfold Leak.AesCbc.decipher_write, dwrite_steps. cbn zeta. set (n := s + len b).
  set (w := if u + 16 * (n / 16) <=? 16 then 0 else 18).
  apply (sp_eq _ ((len b + 1 + (if n <? 16 then 0 else 1 + n mod 16)) +
    (1 + (if n <? 16 then 0 else 3 + n / 16 * (dec_steps nr + 83) + w)))).
  { destruct (n <? 16); lia. }
  eapply sp_bind; [apply sp_pad_write; exact Hp|]. fold n. intros [o p] [Ho Hp']. cbn [fst snd] in Ho, Hp'.
  destruct o as [bl|]; cbn [pad_out] in Ho.
  - destruct Ho as [Hn Hl]. destruct (N.ltb_spec n 16); [lia|].
    apply (sp_eq _ (1 + (16 * (n / 16) + ((1 + n / 16 * (2 + (16 + (dec_steps nr + (1 + (16 + (16 + 0))))))) +
      ((16 * (n / 16) + 1 + w) + (1 + 0)))))); [lia|].
    apply (sp_emit _ _ (Ops.Branch true)).
    eapply sp_bind; [apply sp_chunks16; exact Hl|]. intros cs [Hq Hcs].
    eapply (sp_bind (fun rs : result unit _ * (list N * list N) =>
      fst rs = Ok tt /\ (len (snd (snd rs)) = 16 /\ len (fst (snd rs)) = 16 * (n / 16)))).
    { rewrite <- Hq. cbn [Model.AesCbc.d_aes Model.AesCbc.d_iv].
      assert (G : forall (iv out : list N), len iv = 16 -> 
        spends (fun rs : result unit Model.AesCbc.DecipherError * (list N * list N) =>
          fst rs = Ok tt /\ (len (snd (snd rs)) = 16 /\ len (fst (snd rs)) = len out + 16 * len cs))
          (1 + len cs * (2 + (16 + (dec_steps nr + (1 + (16 + (16 + 0)))))))
          (Ops.for_each_try cs (fun ciphertext st =>
            let '(padded_result, iv) := st in
            let block := repeat 0 16 in
            Ops.bind (Ops.copy_from_slice block ciphertext) (fun block =>
            Ops.bind (Leak.Aes.aes_decrypt (Model.AesCbc.d_aes d) block) (fun r =>
            match r with
            | Err err => Ops.bind (Ops.emit (Ops.Branch false)) (fun _ =>
                Ops.Ret (Err (Model.AesCbc.EAES err), (padded_result, iv)))
            | Ok cleartext => Ops.bind (Ops.emit (Ops.Branch true)) (fun _ =>
                Ops.bind (Ops.xor_into cleartext iv) (fun cleartext =>
                let iv := block in
                Ops.bind (Ops.run (len cleartext) (padded_result ++ cleartext)) (fun padded_result =>
                Ops.Ret (Ok tt, (padded_result, iv)))))
            end))) (out, iv))).
      { clear - Hk Hcs. induction Hcs as [|x cs Hx Hcs IH]; intros iv out Hiv; cbn [Ops.for_each_try].
        - apply (sp_eq _ (1 + 0)); [unfold len; cbn [length]; lia|]. apply (sp_emit _ 0 (Ops.Branch false)).
          apply sp_ret. cbn [fst snd]. split; [reflexivity|]. split; [exact Hiv|]. unfold len; cbn [length]; lia.
        - apply (sp_eq _ (1 + ((16 + (dec_steps nr + (1 + (16 + (16 + 0))))) +
            (1 + (1 + len cs * (2 + (16 + (dec_steps nr + (1 + (16 + (16 + 0)))))))))));
            [unfold len; cbn [length]; lia|].
          apply (sp_emit _ _ (Ops.Branch true)).
          eapply (sp_bind (fun rs : result unit Model.AesCbc.DecipherError * (list N * list N) =>
            fst rs = Ok tt /\ (len (snd (snd rs)) = 16 /\ len (fst (snd rs)) = len out + 16))).
          + eapply sp_bind; [rewrite <- Hx at 1; apply sp_copy|]. intros bl Hbl. rewrite repeat_length in Hbl.
            eapply sp_bind; [apply sp_decrypt; exact Hk|]. intros r [y [-> Hy]].
            assert (Ey : len y = 16) by (unfold len; rewrite Hy; reflexivity).
            apply (sp_emit _ _ (Ops.Branch true)).
            eapply sp_bind; [eapply sp_eq; [|apply sp_xor_into]; rewrite Ey, Hiv; reflexivity|].
            intros z Hz. cbn beta in Hz. rewrite Ey in Hz. rewrite Hz.
            eapply (sp_bind (fun o => len o = len out + 16)).
            { apply sp_run. rewrite len_app, Hz. reflexivity. }
            intros o Ho. apply sp_ret. cbn [fst snd]. split; [reflexivity|]. split; [|exact Ho].
            unfold len. rewrite Hbl. reflexivity.
          + intros [r [out' iv']] [Hr [Hiv' Hout']]. cbn [fst snd] in *. subst r.
            apply (sp_emit _ _ (Ops.Branch true)).
            eapply sp_weaken; [|apply IH; exact Hiv']. cbn beta. intros rs [Hr [H1 H2]].
            split; [exact Hr|]. split; [exact H1|]. rewrite H2, Hout'. unfold len; cbn [length]; lia. }
      eapply sp_weaken; [|apply G; exact Hi]. cbn beta. intros rs [Hr [H1 H2]].
      split; [exact Hr|]. split; [exact H1|]. rewrite H2. unfold len at 1; cbn [length]. lia. }
    intros [r [out iv]] [Hr [Hiv Hout]]. cbn [fst snd] in *. subst r.
    cbn [Model.AesCbc.d_unpad Model.AesCbc.d_aes Model.AesCbc.d_iv Model.AesCbc.d_buffer].
    eapply sp_bind; [apply (sp_unpad_write _ _ u _ (n / 16)); [exact Hu|exact Hu16|lia|exact Hout]|].
    intros [o up] Hup. cbn [snd] in Hup.
    assert (D : decipher_at nr (n mod 16) 16 (Model.AesCbc.mkDecipher (Model.AesCbc.d_aes d) up iv p))
      by (constructor; assumption).
    destruct o as [x|]; [apply (sp_emit _ 0 (Ops.Branch true))|apply (sp_emit _ 0 (Ops.Branch false))];
      apply sp_ret; exact D.
  - destruct (N.ltb_spec n 16); [|lia]. apply (sp_emit _ 0 (Ops.Branch false)). apply sp_ret.
    constructor; assumption.
Qed.

(** Removing the padding. *)
Definition final_steps (v : Leakage.flush_view) : N :=
  match v with
  | Leakage.Short => 2
  | Leakage.TooLarge => 4
  | Leakage.Mismatch n => 6 + n
  | Leakage.Removed _ => 23
  end.
Lemma final_record v k : (forall n, v = Leakage.Removed n -> n <= N.of_nat k) -> k = 16%nat ->
  total (flush_record k v) + 1 = final_steps v.
Proof.
  intros H ->. destruct v as [| |n|n]; cbn [flush_record final_steps total fold_right weight]; try lia.
  specialize (H n eq_refl). lia.
Qed.

(** * Whole streams *)
Lemma sp_cipher_new T iv : len iv = 16 ->
  spends (fun c => stores 0 (Model.AesCbc.c_pad c) /\ len (Model.AesCbc.c_iv c) = 16) 1 (Leak.AesCbc.cipher_new T iv).
Proof.
  intros Hiv. unfold Leak.AesCbc.cipher_new. change Model.Aes.BLOCK_SIZE with 16.
  apply (sp_eq _ (1 + 0)); [reflexivity|]. eapply sp_bind; [apply sp_pad_new|]. intros p Hp.
  apply sp_ret. split; [exact Hp|exact Hiv].
Qed.
Lemma sp_decipher_new T iv : len iv = 16 ->
  spends (fun d => stores 0 (Model.AesCbc.d_buffer d) /\ stores' 0 (Model.AesCbc.d_unpad d) /\
    len (Model.AesCbc.d_iv d) = 16) 2 (Leak.AesCbc.decipher_new T iv).
Proof.
  intros Hiv. unfold Leak.AesCbc.decipher_new. change Model.Aes.BLOCK_SIZE with 16.
  apply (sp_eq _ (1 + (1 + 0))); [reflexivity|]. eapply sp_bind; [apply sp_unpad_new|]. intros u Hu.
  eapply sp_bind; [apply sp_pad_new|]. intros p Hp.
  apply sp_ret. split; [exact Hp|]. split; [exact Hu|exact Hiv].
Qed.
Definition key_size (n : N) : Prop := n = 16 \/ n = 24 \/ n = 32.
Lemma sp_cipher_init c key : key_size (len key) -> stores 0 (Model.AesCbc.c_pad c) -> len (Model.AesCbc.c_iv c) = 16 ->
  spends (fun rc => cipher_at (rounds (len key)) 0 (snd rc)) (init_steps (len key)) (Leak.AesCbc.cipher_init c key).
Proof.
  intros Hk Hp Hi. unfold Leak.AesCbc.cipher_init. apply (sp_eq _ (init_steps (len key) + 0)); [lia|].
  eapply sp_bind; [apply sp_init|]. intros [r a] Ha. destruct (Ha Hk) as [_ Hs]. apply sp_ret.
  constructor; assumption.
Qed.
Lemma sp_decipher_init d key : key_size (len key) -> stores 0 (Model.AesCbc.d_buffer d) ->
  stores' 0 (Model.AesCbc.d_unpad d) -> len (Model.AesCbc.d_iv d) = 16 ->
  spends (fun rd => decipher_at (rounds (len key)) 0 0 (snd rd)) (init_steps (len key)) (Leak.AesCbc.decipher_init d key).
Proof.
  intros Hk Hp Hu Hi. unfold Leak.AesCbc.decipher_init. apply (sp_eq _ (init_steps (len key) + 0)); [lia|].
  eapply sp_bind; [apply sp_init|]. intros [r a] Ha. destruct (Ha Hk) as [_ Hs]. apply sp_ret.
  constructor; assumption.
Qed.

Fixpoint cwrites_steps (e s : N) (lens : list N) : N :=
  match lens with
  | [] => 0
  | b :: bs => cwrite_steps e s b + cwrites_steps e ((s + b) mod 16) bs
  end.
Fixpoint dwrites_steps (e s u : N) (lens : list N) : N :=
  match lens with
  | [] => 0
  | b :: bs => dwrite_steps e s u b + dwrites_steps e ((s + b) mod 16) (if s + b <? 16 then u else 16) bs
  end.

Fixpoint pending (s : N) (lens : list N) : N :=
  match lens with
  | [] => s
  | b :: bs => pending ((s + b) mod 16) bs
  end.
Lemma sp_cipher_stream T nr chunks : forall s c, s < 16 -> cipher_at nr s c ->
  let lens := map len chunks in
  spends anyv (cwrites_steps (enc_steps nr) s lens + (50 - pending s lens + enc_steps nr))
    (Leak.Calls.run_calls (Leak.Calls.cipher_call T) c (map Stream.Write chunks ++ [Stream.Flush])).
Proof.
  induction chunks as [|d ds IH]; intros s c Hs Hc lens; cbn [map app Leak.Calls.run_calls] in *;
    cbn [cwrites_steps pending lens].
  - apply (sp_eq _ (((50 - s + enc_steps nr) + 0) + (0 + 0))); [lia|].
    eapply (sp_bind anyv); [|intros [r c'] _; eapply (sp_bind anyv); [apply sp_ret; exact I|intros [rs c''] _; apply sp_ret; exact I]].
    cbn [Leak.Calls.cipher_call]. eapply sp_bind; [apply sp_cipher_flush; [exact Hc|lia]|]. intros [r c'] _. apply sp_ret. exact I.
  - fold (map len ds). set (s' := (s + len d) mod 16).
    apply (sp_eq _ ((cwrite_steps (enc_steps nr) s (len d) + 0) +
      ((cwrites_steps (enc_steps nr) s' (map len ds) + (50 - pending s' (map len ds) + enc_steps nr)) + 0))); [lia|].
    eapply (sp_bind (fun rc => cipher_at nr s' (snd rc))).
    + cbn [Leak.Calls.cipher_call]. eapply sp_bind; [apply sp_cipher_write; exact Hc|]. intros [r c'] Hc'. apply sp_ret. exact Hc'.
    + intros [r c'] Hc'. cbn [snd] in Hc'. eapply sp_bind; [apply (IH s'); [subst s'; lia|exact Hc']|].
      intros [rs c''] _. apply sp_ret. exact I.
Qed.
Lemma sp_decipher_stream T nr chunks : forall s u d, s < 16 -> (u = 0 \/ u = 16) -> decipher_at nr s u d ->
  spends anyv (dwrites_steps (dec_steps nr) s u (map len chunks))
    (Leak.Calls.run_calls (Leak.Calls.decipher_call T) d (map Stream.Write chunks)).
Proof.
  induction chunks as [|x xs IH]; intros s u d Hs Hu Hd; cbn [map Leak.Calls.run_calls dwrites_steps].
  - apply sp_ret. exact I.
  - set (s' := (s + len x) mod 16). set (u' := if s + len x <? 16 then u else 16).
    apply (sp_eq _ ((dwrite_steps (dec_steps nr) s u (len x) + 0) +
      (dwrites_steps (dec_steps nr) s' u' (map len xs) + 0))); [lia|].
    eapply (sp_bind (fun rd => decipher_at nr s' u' (snd rd))).
    + cbn [Leak.Calls.decipher_call]. eapply sp_bind; [apply sp_decipher_write; [exact Hd|exact Hu]|].
      intros [r d'] Hd'. apply sp_ret. exact Hd'.
    + intros [r d'] Hd'. cbn [snd] in Hd'. eapply sp_bind.
      * apply (IH s' u'); [subst s'; lia| |exact Hd']. subst u'. destruct (s + len x <? 16); auto.
      * intros [rs d''] _. apply sp_ret. exact I.
Qed.
