(** The model of aes_cbc.rs refines the machines of [Spec.Stream]. *)
From Coq Require Import ZArith NArith List Arith Lia Bool ZifyBool ZifyNat ZifyN.
From Verif Require Import Rust Calls.
From Verif.Model Require Import Aes Pkcs7 AesCbc.
From Verif.Spec Require Octets Aes Cbc Stream BlockCipher.
From Verif.Proofs Require Import Base Stream.
From Verif.Proofs Require Aes Pkcs7.
Import Spec.Octets Spec.Cbc.
Import ListNotations.
Local Open Scope N_scope.

Ltac Zify.zify_post_hook ::= Z.div_mod_to_equations.

Lemma Cipher_block key b : octets key -> Spec.Aes.valid_key_size key ->
  is_block (Spec.Aes.Cipher key b).
Proof. intros. split; [apply Aes.Cipher_octets; assumption|apply Aes.Cipher_length]. Qed.
Lemma InvCipher_block key b : octets key -> Spec.Aes.valid_key_size key -> is_block b ->
  is_block (Spec.Aes.InvCipher key b).
Proof.
  intros Hk Hs [Hb _]. split; [apply Aes.InvCipher_octets; assumption|apply Aes.InvCipher_length].
Qed.
Lemma InvCipher_Cipher_block key b : octets key -> Spec.Aes.valid_key_size key -> is_block b ->
  Spec.Aes.InvCipher key (Spec.Aes.Cipher key b) = b.
Proof. intros Hk Hs [Hb Hl]. apply Aes.InvCipher_Cipher; assumption. Qed.
Lemma Cipher_InvCipher_block key b : octets key -> Spec.Aes.valid_key_size key -> is_block b ->
  Spec.Aes.Cipher key (Spec.Aes.InvCipher key b) = b.
Proof. intros Hk Hs [Hb Hl]. apply Aes.Cipher_InvCipher; assumption. Qed.

(** * Cipher *)

Record c_rel (c : Cipher) (s : Stream.cipher) : Prop := {
  cr_key : Aes.holds (c_aes c) (Stream.c_key s);
  cr_pad : c_pad c = mkPad 16 (Stream.c_pending s);
  cr_iv : c_iv c = Stream.c_chain s;
  cr_chain : is_block (Stream.c_chain s);
  cr_pending : octets (Stream.c_pending s);
  cr_short : (length (Stream.c_pending s) < 16)%nat
}.

Lemma encrypt_block_some c key b : Aes.holds (c_aes c) (Some key) ->
  is_block (c_iv c) -> is_block b ->
  let e := Spec.Aes.Cipher key (xor b (c_iv c)) in
  encrypt_block c b = Ret (Ok e, mkCipher (c_aes c) (c_pad c) e).
Proof.
  intros (Ha & Hk & Hs) Hiv Hb. cbv zeta. unfold encrypt_block.
  rewrite copy_from_slice_ok by (destruct Hb; rewrite repeat_length; auto). cbn [bind].
  rewrite xor_into_xor by (destruct Hb, Hiv; congruence).
  destruct (is_block_xor b (c_iv c) Hb Hiv) as [Hx Hl].
  rewrite Ha, Aes.aes_encrypt_ok by assumption. cbn [bind]. reflexivity.
Qed.
Lemma encrypt_block_none c b : Aes.holds (c_aes c) None ->
  is_block (c_iv c) -> is_block b -> encrypt_block c b = Ret (Err NotInitialized, c).
Proof.
  intros Ha Hiv Hb. unfold encrypt_block.
  rewrite copy_from_slice_ok by (destruct Hb; rewrite repeat_length; auto). cbn [bind].
  rewrite xor_into_xor by (destruct Hb, Hiv; congruence).
  destruct (is_block_xor b (c_iv c) Hb Hiv) as [Hx Hl].
  rewrite Aes.aes_encrypt_none by assumption. reflexivity.
Qed.

Lemma encrypt_loop key bs : forall c out,
  Aes.holds (c_aes c) (Some key) -> is_block (c_iv c) -> Forall is_block bs ->
  let E := cbc_encrypt (Spec.Aes.Cipher key) (c_iv c) bs in
  for_each_try bs (fun block st =>
          let '(out, c) := st in
          let* (r, c) := encrypt_block c block in
          match r with
          | Ok ciphertext => Ret (Ok tt, (out ++ ciphertext, c))
          | Err e => Ret (Err e, (out, c))
          end) (out, c) =
  Ret (Ok tt, (out ++ concat E, mkCipher (c_aes c) (c_pad c) (last E (c_iv c)))).
Proof.
  induction bs as [|b bs IH]; intros c out Ha Hiv Hbs; cbv zeta.
  - cbn. rewrite app_nil_r. destruct c; reflexivity.
  - inversion Hbs; subst. cbn [for_each_try]. rewrite (encrypt_block_some c key b) by assumption.
    cbn [bind cbc_encrypt]. rewrite IH.
    + cbn [c_aes c_pad c_iv concat]. rewrite <- app_assoc, last_cons. reflexivity.
    + assumption.
    + cbn [c_iv]. destruct Ha as (_ & Hk & Hs). apply Cipher_block; assumption.
    + assumption.
Qed.
Lemma encrypt_loop_none bs c out : bs <> [] ->
  Aes.holds (c_aes c) None -> is_block (c_iv c) -> Forall is_block bs ->
  for_each_try bs (fun block st =>
          let '(out, c) := st in
          let* (r, c) := encrypt_block c block in
          match r with
          | Ok ciphertext => Ret (Ok tt, (out ++ ciphertext, c))
          | Err e => Ret (Err e, (out, c))
          end) (out, c) =
  Ret (Err NotInitialized, (out, c)).
Proof.
  intros Hne Ha Hiv Hbs. destruct bs as [|b bs]; [contradiction|]. inversion Hbs; subst.
  cbn [for_each_try]. rewrite encrypt_block_none by assumption. reflexivity.
Qed.

Lemma whole_blocks l : octets l -> Forall is_block (blocks 16 l).
Proof. apply blocks_are_blocks. Qed.
Lemma blocks_nonempty (l : list N) : (16 <= length l)%nat -> blocks 16 l <> [].
Proof.
  intros H E. apply (f_equal (@length (list N))) in E. rewrite blocks_length in E.
  cbn [length] in E. apply Nat.div_small_iff in E; lia.
Qed.
Lemma chunks_whole l : chunks (Stream.whole 16 l) BLOCK_SIZE = Ret (blocks 16 l).
Proof.
  unfold BLOCK_SIZE. rewrite chunks_blocks; [|discriminate|apply (whole_mod 16); discriminate].
  change (N.to_nat 16) with 16%nat. rewrite blocks_whole by discriminate. reflexivity.
Qed.

Lemma cipher_new_ok T iv : is_block iv ->
  exists c, cipher_new T iv = Ret c /\ c_rel c (Stream.new_cipher iv).
Proof.
  intros Hiv. unfold cipher_new. rewrite Pkcs7.pad_new_ok by (apply Pkcs7.block_size_fits; reflexivity).
  cbn [bind]. eexists. split; [reflexivity|]. constructor; cbn; try reflexivity; try assumption;
    [constructor|lia].
Qed.

Lemma pad_write_16 T p b :
  pad_write T (mkPad 16 p) b =
  Ret (if Nat.ltb (length (p ++ b)) 16 then None else Some (Stream.whole 16 (p ++ b)),
       mkPad 16 (Stream.rest 16 (p ++ b))).
Proof. apply (Pkcs7.pad_write_ok T 16). discriminate. Qed.
Lemma unpad_write_16 T p b :
  unpad_write T (mkUnpad 16 p) b =
  Ret (if Nat.leb (length (p ++ b)) 16 then None else Some (Stream.settled 16 (p ++ b)),
       mkUnpad 16 (Stream.held 16 (p ++ b))).
Proof. apply (Pkcs7.unpad_write_ok T 16). discriminate. Qed.

Lemma cipher_step_ok T c s x : stream_call_ok x -> c_rel c s ->
  exists c', cipher_call T c x = Ret (fst (Stream.cipher_step s x), c') /\
    c_rel c' (snd (Stream.cipher_step s x)).
Proof.
  intros Hx [Hkey Hpad Hiv Hch Hpe Hsh]. destruct x as [key|d|]; cbn [cipher_call Stream.cipher_step].
  - cbn in Hx. unfold cipher_init. destruct (BlockCipher.key_size_ok key) eqn:E.
    + apply Aes.key_size_ok_spec in E. rewrite Aes.aes_init_ok by assumption. cbn [bind fst snd].
      eexists. split; [reflexivity|]. constructor; cbn; auto.
    + assert (H : ~ Spec.Aes.valid_key_size key) by (rewrite <- Aes.key_size_ok_spec; congruence).
      rewrite Aes.aes_init_err by assumption. cbn [bind fst snd].
      eexists. split; [reflexivity|]. constructor; cbn; auto.
  - cbn in Hx. unfold cipher_write. rewrite Hpad, pad_write_16.
    set (l := Stream.c_pending s ++ d).
    assert (Hl : octets l) by (apply octets_app; auto).
    cbv zeta. destruct (Nat.ltb_spec (length l) 16) as [H|H]; cbn [bind fst snd].
    + eexists. split; [reflexivity|]. rewrite (proj2 (whole_short 16 l H)).
      constructor; cbn; auto.
    + rewrite chunks_whole. cbn [bind].
      assert (Hr : octets (Stream.rest 16 l)) by (apply octets_rest; assumption).
      assert (Hr' : (length (Stream.rest 16 l) < 16)%nat) by (apply rest_lt; discriminate).
      destruct (Stream.c_key s) as [key|] eqn:Ek.
      * rewrite (encrypt_loop key); [|assumption|cbn; rewrite Hiv; assumption|apply whole_blocks; assumption].
        cbn [bind c_iv c_aes c_pad app fst snd]. rewrite Hiv.
        eexists. split; [reflexivity|].
        constructor; cbn [c_aes c_pad c_iv Stream.c_key Stream.c_chain Stream.c_pending]; auto.
        unfold Stream.last_block. apply last_Forall; [|assumption]. destruct Hkey as (_ & Hk & Hs).
        apply cbc_encrypt_blocks; [|assumption|apply whole_blocks; assumption].
        intros b _. apply Cipher_block; assumption.
      * rewrite encrypt_loop_none;
          [|apply blocks_nonempty; assumption|assumption|cbn; rewrite Hiv; assumption
           |apply whole_blocks; assumption].
        cbn [bind fst snd aes_error_reply]. eexists. split; [reflexivity|].
        constructor; cbn; auto.
  - unfold cipher_flush. rewrite Hpad.
    rewrite (Pkcs7.pad_flush_ok T 16) by (try assumption; lia). cbn [bind].
    assert (Hb : is_block (pkcs7_pad 16 (Stream.c_pending s))).
    { split; [apply octets_pkcs7_pad; [lia|assumption]|apply pkcs7_pad_short_length; assumption]. }
    destruct (Stream.c_key s) as [key|] eqn:Ek.
    + rewrite (encrypt_block_some _ key) by (try assumption; cbn; rewrite Hiv; assumption).
      cbn [bind c_iv c_aes c_pad fst snd]. rewrite Hiv. eexists. split; [reflexivity|].
      destruct Hkey as (Hkey & Hk & Hs).
      constructor; cbn [c_aes c_pad c_iv Stream.c_key Stream.c_chain Stream.c_pending]; auto;
        [split; auto|apply Cipher_block; assumption|constructor|cbn; lia].
    + rewrite encrypt_block_none by (try assumption; cbn; rewrite Hiv; assumption).
      cbn [bind fst snd]. eexists. split; [reflexivity|]. constructor; cbn; auto; [constructor|lia].
Qed.

(** * Decipher *)

Record d_rel (c : Decipher) (s : Stream.decipher) : Prop := {
  dr_key : Aes.holds (d_aes c) (Stream.d_key s);
  dr_buffer : d_buffer c = mkPad 16 (Stream.d_fragment s);
  dr_unpad : d_unpad c = mkUnpad 16 (Stream.d_held s);
  dr_iv : d_iv c = Stream.d_chain s;
  dr_chain : is_block (Stream.d_chain s);
  dr_fragment : octets (Stream.d_fragment s);
  dr_short : (length (Stream.d_fragment s) < 16)%nat;
  dr_held : octets (Stream.d_held s);
  dr_held_short : (length (Stream.d_held s) <= 16)%nat
}.

Definition decrypt_body (a : AES) (ciphertext : list N) (st : list N * list N)
  : res (result unit DecipherError * (list N * list N)) :=
  let '(padded_result, iv) := st in
  let block := repeat 0 16 in
  let* block := copy_from_slice block ciphertext in
  let* r := aes_decrypt a block in
  match r with
  | Err err => Ret (Err (EAES err), (padded_result, iv))
  | Ok cleartext =>
      let cleartext := xor_into cleartext iv in
      let iv := block in
      Ret (Ok tt, (padded_result ++ cleartext, iv))
  end.

Lemma decrypt_loop a key bs : forall iv out,
  Aes.holds a (Some key) -> is_block iv -> Forall is_block bs ->
  for_each_try bs (decrypt_body a) (out, iv) =
  Ret (Ok tt, (out ++ concat (cbc_decrypt (Spec.Aes.InvCipher key) iv bs), last bs iv)).
Proof.
  induction bs as [|b bs IH]; intros iv out Ha Hiv Hbs.
  - cbn. rewrite app_nil_r. reflexivity.
  - inversion Hbs; subst. cbn [for_each_try decrypt_body].
    rewrite copy_from_slice_ok by (destruct H1; rewrite repeat_length; auto). cbn [bind].
    destruct Ha as (Ha & Hk & Hs). rewrite Ha at 1. destruct H1 as [Hb Hl].
    rewrite Aes.aes_decrypt_ok by assumption. cbn [bind].
    rewrite xor_into_xor by (destruct Hiv; rewrite Aes.InvCipher_length; congruence).
    rewrite IH; [|split; [assumption|split; assumption]|split; assumption|assumption].
    cbn [cbc_decrypt concat]. rewrite <- app_assoc, last_cons. reflexivity.
Qed.
Lemma decrypt_loop_none a bs iv out : bs <> [] -> Aes.holds a None -> Forall is_block bs ->
  for_each_try bs (decrypt_body a) (out, iv) = Ret (Err (EAES NotInitialized), (out, iv)).
Proof.
  intros Hne Ha Hbs. destruct bs as [|b bs]; [contradiction|]. inversion Hbs; subst.
  cbn [for_each_try decrypt_body]. destruct H1 as [Hb Hl].
  rewrite copy_from_slice_ok by (rewrite repeat_length; auto). cbn [bind].
  rewrite Aes.aes_decrypt_none by assumption. reflexivity.
Qed.

Lemma decipher_new_ok T iv : is_block iv ->
  exists d, decipher_new T iv = Ret d /\ d_rel d (Stream.new_decipher iv).
Proof.
  intros Hiv. unfold decipher_new.
  rewrite Pkcs7.unpad_new_ok by (apply Pkcs7.block_size_fits; reflexivity). cbn [bind].
  rewrite Pkcs7.pad_new_ok by (apply Pkcs7.block_size_fits; reflexivity).
  cbn [bind]. eexists. split; [reflexivity|].
  constructor; cbn; try reflexivity; try assumption; (lia || constructor).
Qed.

Lemma decipher_write_unfold T d b :
  decipher_write T d b =
  let* (w, buffer) := pad_write T (d_buffer d) b in
  let d := mkDecipher (d_aes d) (d_unpad d) (d_iv d) buffer in
  match w with
  | None => Ret (Ok [], d)
  | Some blocks =>
      let* cs := chunks blocks BLOCK_SIZE in
      let* (r, (padded_result, iv)) := for_each_try cs (decrypt_body (d_aes d)) ([], d_iv d) in
      let d := mkDecipher (d_aes d) (d_unpad d) iv (d_buffer d) in
      match r with
      | Err e => Ret (Err e, d)
      | Ok _ =>
          let* (o, unpad) := unpad_write T (d_unpad d) padded_result in
          let d := mkDecipher (d_aes d) unpad (d_iv d) (d_buffer d) in
          match o with
          | Some x => Ret (Ok x, d)
          | None => Ret (Ok [], d)
          end
      end
  end.
Proof. reflexivity. Qed.

Lemma decipher_step_ok T c s x : stream_call_ok x -> d_rel c s ->
  exists c', decipher_call T c x = Ret (fst (Stream.decipher_step s x), c') /\
    d_rel c' (snd (Stream.decipher_step s x)).
Proof.
  intros Hx [Hkey Hbuf Hun Hiv Hch Hfr Hsh Hhe Hhs].
  destruct x as [key|b|]; cbn [decipher_call Stream.decipher_step].
  - cbn in Hx. unfold decipher_init. destruct (BlockCipher.key_size_ok key) eqn:E.
    + apply Aes.key_size_ok_spec in E. rewrite Aes.aes_init_ok by assumption. cbn [bind fst snd].
      eexists. split; [reflexivity|]. constructor; cbn; auto.
    + assert (H : ~ Spec.Aes.valid_key_size key) by (rewrite <- Aes.key_size_ok_spec; congruence).
      rewrite Aes.aes_init_err by assumption. cbn [bind fst snd].
      eexists. split; [reflexivity|]. constructor; cbn; auto.
  - cbn in Hx. rewrite decipher_write_unfold, Hbuf, pad_write_16.
    set (l := Stream.d_fragment s ++ b).
    assert (Hl : octets l) by (apply octets_app; auto).
    cbv zeta. destruct (Nat.ltb_spec (length l) 16) as [H|H]; cbn [bind fst snd].
    + eexists. split; [reflexivity|]. rewrite (proj2 (whole_short 16 l H)).
      constructor; cbn; auto.
    + rewrite chunks_whole. cbn [bind].
      assert (Hr : octets (Stream.rest 16 l)) by (apply octets_rest; assumption).
      assert (Hr' : (length (Stream.rest 16 l) < 16)%nat) by (apply rest_lt; discriminate).
      pose proof (whole_blocks l Hl) as Hbl.
      cbn [d_aes d_iv d_unpad d_buffer].
      destruct (Stream.d_key s) as [key|] eqn:Ek.
      * rewrite (decrypt_loop _ key); [|assumption|rewrite Hiv; assumption|assumption].
        cbn [bind app d_aes d_iv d_unpad d_buffer]. rewrite Hun, Hiv, unpad_write_16.
        set (P := concat (cbc_decrypt (Spec.Aes.InvCipher key) (Stream.d_chain s) (blocks 16 l))).
        assert (HP : octets P).
        { apply is_blocks_octets. destruct Hkey as (_ & Hk & Hs).
          apply cbc_decrypt_blocks; [|assumption|assumption].
          intros x Hbx. apply InvCipher_block; assumption. }
        assert (HQ : octets (Stream.d_held s ++ P)) by (apply octets_app; auto).
        assert (R : d_rel (mkDecipher (d_aes c) (mkUnpad 16 (Stream.held 16 (Stream.d_held s ++ P)))
                      (last (blocks 16 l) (Stream.d_chain s)) (mkPad 16 (Stream.rest 16 l)))
                    (Stream.mkDecipher (Some key) (last (blocks 16 l) (Stream.d_chain s))
                      (Stream.rest 16 l) (Stream.held 16 (Stream.d_held s ++ P)))).
        { constructor; cbn [d_aes d_iv d_unpad d_buffer Stream.d_key Stream.d_chain
            Stream.d_fragment Stream.d_held]; auto.
          - apply last_Forall; assumption.
          - apply octets_held. assumption.
          - apply held_le. discriminate. }
        destruct (Nat.leb_spec (length (Stream.d_held s ++ P)) 16) as [H'|H']; cbn [bind fst snd].
        -- rewrite (proj1 (settled_short 16 _ ltac:(discriminate) H')).
           eexists. split; [reflexivity|]. exact R.
        -- eexists. split; [reflexivity|]. exact R.
      * rewrite decrypt_loop_none; [|apply blocks_nonempty; assumption|assumption|assumption].
        cbn [bind fst snd decipher_error_reply aes_error_reply d_aes d_iv d_unpad d_buffer].
        eexists. split; [reflexivity|]. constructor; cbn; auto.
  - unfold decipher_flush. rewrite Hun.
    rewrite (Pkcs7.unpad_flush_ok T 16) by lia.
    destruct (Stream.strip 16 (Stream.d_held s)) as [m| |]; cbn [bind fst snd decipher_error_reply];
      (eexists; split; [reflexivity|]); constructor; cbn; auto; (lia || constructor).
Qed.

(** * Histories *)

Lemma run_ok {M S : Type} (call : M -> Stream.call -> res (Stream.reply * M))
    (step : S -> Stream.call -> Stream.reply * S) (rel : M -> S -> Prop) :
  (forall m s x, stream_call_ok x -> rel m s ->
     exists m', call m x = Ret (fst (step s x), m') /\ rel m' (snd (step s x))) ->
  forall calls m s, Forall stream_call_ok calls -> rel m s ->
  exists m', run_calls call m calls = Ret (fst (Stream.run step s calls), m') /\
    rel m' (snd (Stream.run step s calls)).
Proof.
  intros Hstep. induction calls as [|x xs IH]; intros m s Hc Hr.
  - exists m. split; [reflexivity|assumption].
  - inversion Hc; subst. cbn [run_calls Stream.run].
    destruct (Hstep m s x) as (m1 & E1 & R1); [assumption..|]. rewrite E1. cbn [bind].
    destruct (step s x) as [r s1]. cbn [fst snd] in *.
    destruct (IH m1 s1) as (m2 & E2 & R2); [assumption..|]. rewrite E2. cbn [bind].
    destruct (Stream.run step s1 xs) as [rs s2]. exists m2. split; [reflexivity|assumption].
Qed.

Lemma cipher_run_ok T iv calls : is_block iv -> Forall stream_call_ok calls ->
  exists c, cipher_run T iv calls =
    Ret (fst (Stream.run Stream.cipher_step (Stream.new_cipher iv) calls), c) /\
    c_rel c (snd (Stream.run Stream.cipher_step (Stream.new_cipher iv) calls)).
Proof.
  intros Hiv Hc. unfold cipher_run. destruct (cipher_new_ok T iv Hiv) as (c & E & R).
  rewrite E. cbn [bind]. apply run_ok with (rel := c_rel); [|assumption|assumption].
  intros. apply cipher_step_ok; assumption.
Qed.
Lemma decipher_run_ok T iv calls : is_block iv -> Forall stream_call_ok calls ->
  exists d, decipher_run T iv calls =
    Ret (fst (Stream.run Stream.decipher_step (Stream.new_decipher iv) calls), d) /\
    d_rel d (snd (Stream.run Stream.decipher_step (Stream.new_decipher iv) calls)).
Proof.
  intros Hiv Hc. unfold decipher_run. destruct (decipher_new_ok T iv Hiv) as (c & E & R).
  rewrite E. cbn [bind]. apply run_ok with (rel := d_rel); [|assumption|assumption].
  intros. apply decipher_step_ok; assumption.
Qed.
