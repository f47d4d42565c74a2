(** C88: how a difference spreads through the rounds of AES. *)
From Coq Require Import ZArith NArith List Arith Lia Bool ZifyBool ZifyNat ZifyN.
From Verif Require Import Rust.
From Verif.Spec Require Import Diffusion.
From Verif.Model Require Import Aes.
From Verif.Proofs Require Import Base Aes Diffusion.
Import ListNotations.
Local Open Scope N_scope.

(** [round_body] is what [encrypt] repeats. *)
Theorem C88_rounds_of_encrypt : forall nr w b,
  aes_encrypt (mkAES nr (Some w)) b =
  (let* state := to_block b in
   let* k := slice w 0 NB in
   let* state := add_round_key state k in
   let* state := for_range 1 nr (round_body w) state in
   let* state := sub_bytes enc_lookup_sbox state in
   let* state := enc_shift_rows state in
   let* k := slice_from w (nr * NB) in
   let* state := add_round_key state k in
   let* out := from_block state in
   Ret (Ok out)).
Proof. reflexivity. Qed.
Print Assumptions C88_rounds_of_encrypt.

(** With its key words there, a round of a state returns, and its result is a state
    again. *)
Theorem C88_round_returns : forall w r s, octet_square s -> (r + 1) * 4 <= N.of_nat (length w) ->
  exists t, round_body w r s = Ret t /\ octet_square t.
Proof.
  intros w r S H Hl. destruct (square_cols S H) as (s & Hs & ->). unfold round_body.
  rewrite sub_bytes_ok by exact Hs. cbn [bind]. rewrite shift_rows_ok. cbn [bind].
  rewrite mix_columns_ok by apply ShiftRows_wf, SubBytes_wf. cbn [bind].
  destruct (slice w (r * NB) ((r + 1) * NB)) as [k| |] eqn:E.
  - cbn [bind]. rewrite plus_key_ok by exact (slice_four w r k E). eexists. split; [reflexivity|].
    apply cols_square, plus_key_wf, mix_with_wf.
  - exfalso. rewrite slice_ok in E by (unfold NB; lia). discriminate.
  - exfalso. rewrite slice_ok in E by (unfold NB; lia). discriminate.
Qed.
Print Assumptions C88_round_returns.

Lemma total_some a a' : wf a -> wf a' -> a <> a' -> (1 <= total (pat a a'))%nat.
Proof.
  intros Wa Wa' D. destruct (total (pat a a')) eqn:T; [|lia]. exfalso. apply D. apply wf_eq; [assumption..|].
  intros r c Hr Hc. assert (Z : weight (pat a a' r c) = 0%nat).
  { unfold total, column in T.
    destruct c as [|[|[|[|]]]]; [..|lia]; (destruct r as [|[|[|[|]]]]; [..|lia]); lia. }
  unfold pat in Z. rewrite nonzero_lxor in Z.
  destruct (N.eqb_spec (Spec.Aes.entry a r c) (Spec.Aes.entry a' r c)); [assumption|discriminate].
Qed.

(** A difference in one byte is a difference in exactly four bytes after one round
    and in all sixteen after two, whatever the state, the byte and the round keys. *)
Theorem C88_one_byte_spreads : forall w w' r r' s0 s0' s1 s1' s2 s2',
  octet_square s0 -> octet_square s0' ->
  round_body w r s0 = Ret s1 -> round_body w r s0' = Ret s1' ->
  round_body w' r' s1 = Ret s2 -> round_body w' r' s1' = Ret s2' ->
  differing s0 s0' = 1%nat ->
  differing s1 s1' = 4%nat /\ differing s2 s2' = 16%nat.
Proof.
  intros w w' r r' s0 s0' s1 s1' s2 s2' H H' E1 E1' E2 E2' D.
  destruct (one_round w r _ _ _ _ H H' E1 E1') as (a & a' & b & b' & Wa & Wa' & Wb & Wb' & -> & -> & -> & -> & S1).
  destruct (one_round w' r' _ _ _ _ (cols_square b Wb) (cols_square b' Wb') E2 E2')
    as (c & c' & d & d' & Wc & Wc' & _ & _ & Ec & Ec' & -> & -> & S2).
  apply cols_inj in Ec; [|assumption..]. apply cols_inj in Ec'; [|assumption..]. subst c c'.
  rewrite !differing_total in *. exact (one_spreads _ _ _ S1 S2 D).
Qed.
Print Assumptions C88_one_byte_spreads.

(** Of any two different states, at least 25 of the 64 bytes that go into the
    substitution in four successive rounds differ. *)
Theorem C88_four_rounds : forall w1 w2 w3 r1 r2 r3 s0 s0' s1 s1' s2 s2' s3 s3',
  octet_square s0 -> octet_square s0' -> s0 <> s0' ->
  round_body w1 r1 s0 = Ret s1 -> round_body w1 r1 s0' = Ret s1' ->
  round_body w2 r2 s1 = Ret s2 -> round_body w2 r2 s1' = Ret s2' ->
  round_body w3 r3 s2 = Ret s3 -> round_body w3 r3 s2' = Ret s3' ->
  (25 <= differing s0 s0' + differing s1 s1' + differing s2 s2' + differing s3 s3')%nat.
Proof.
  intros w1 w2 w3 r1 r2 r3 s0 s0' s1 s1' s2 s2' s3 s3' H H' D E1 E1' E2 E2' E3 E3'.
  destruct (one_round w1 r1 _ _ _ _ H H' E1 E1') as (a & a' & b & b' & Wa & Wa' & Wb & Wb' & -> & -> & -> & -> & S1).
  destruct (one_round w2 r2 _ _ _ _ (cols_square b Wb) (cols_square b' Wb') E2 E2')
    as (c & c' & d & d' & Wc & Wc' & Wd & Wd' & Ec & Ec' & -> & -> & S2).
  apply cols_inj in Ec; [|assumption..]. apply cols_inj in Ec'; [|assumption..]. subst c c'.
  destruct (one_round w3 r3 _ _ _ _ (cols_square d Wd) (cols_square d' Wd') E3 E3')
    as (e & e' & f & f' & We & We' & Wf & Wf' & Ee & Ee' & -> & -> & S3).
  apply cols_inj in Ee; [|assumption..]. apply cols_inj in Ee'; [|assumption..]. subst e e'.
  rewrite !differing_total in *. apply (four_rounds _ _ _ _ S1 S2 S3).
  apply (total_some a a'); assumption || congruence.
Qed.
Print Assumptions C88_four_rounds.

(** The same for the rounds of [decrypt]. *)
Theorem C88_rounds_of_decrypt : forall nr w b,
  aes_decrypt (mkAES nr (Some w)) b =
  (let* state := to_block b in
   let* k := slice_from w (nr * NB) in
   let* state := add_round_key state k in
   let* state := for_range_rev 1 nr (unround_body w) state in
   let* state := dec_shift_rows state in
   let* state := sub_bytes dec_lookup_sbox state in
   let* k := slice w 0 NB in
   let* state := add_round_key state k in
   let* out := from_block state in
   Ret (Ok out)).
Proof. reflexivity. Qed.
Print Assumptions C88_rounds_of_decrypt.

Theorem C88_one_byte_spreads_back : forall w w' r r' s0 s0' s1 s1' s2 s2',
  octet_square s0 -> octet_square s0' ->
  unround_body w r s0 = Ret s1 -> unround_body w r s0' = Ret s1' ->
  unround_body w' r' s1 = Ret s2 -> unround_body w' r' s1' = Ret s2' ->
  differing s0 s0' = 1%nat ->
  differing s1 s1' = 4%nat /\ differing s2 s2' = 16%nat.
Proof.
  intros w w' r r' s0 s0' s1 s1' s2 s2' H H' E1 E1' E2 E2' D.
  destruct (one_unround w r _ _ _ _ H H' E1 E1') as (a & a' & b & b' & Wa & Wa' & Wb & Wb' & -> & -> & -> & -> & S1).
  destruct (one_unround w' r' _ _ _ _ (cols_square b Wb) (cols_square b' Wb') E2 E2')
    as (c & c' & d & d' & Wc & Wc' & _ & _ & Ec & Ec' & -> & -> & S2).
  apply cols_inj in Ec; [|assumption..]. apply cols_inj in Ec'; [|assumption..]. subst c c'.
  rewrite !differing_total in *. rewrite <- reflect_total in D |- *. rewrite <- (reflect_total (pat d d')).
  exact (one_spreads _ _ _ S1 S2 D).
Qed.
Print Assumptions C88_one_byte_spreads_back.

Theorem C88_four_rounds_back : forall w1 w2 w3 r1 r2 r3 s0 s0' s1 s1' s2 s2' s3 s3',
  octet_square s0 -> octet_square s0' -> s0 <> s0' ->
  unround_body w1 r1 s0 = Ret s1 -> unround_body w1 r1 s0' = Ret s1' ->
  unround_body w2 r2 s1 = Ret s2 -> unround_body w2 r2 s1' = Ret s2' ->
  unround_body w3 r3 s2 = Ret s3 -> unround_body w3 r3 s2' = Ret s3' ->
  (25 <= differing s0 s0' + differing s1 s1' + differing s2 s2' + differing s3 s3')%nat.
Proof.
  intros w1 w2 w3 r1 r2 r3 s0 s0' s1 s1' s2 s2' s3 s3' H H' D E1 E1' E2 E2' E3 E3'.
  destruct (one_unround w1 r1 _ _ _ _ H H' E1 E1') as (a & a' & b & b' & Wa & Wa' & Wb & Wb' & -> & -> & -> & -> & S1).
  destruct (one_unround w2 r2 _ _ _ _ (cols_square b Wb) (cols_square b' Wb') E2 E2')
    as (c & c' & d & d' & Wc & Wc' & Wd & Wd' & Ec & Ec' & -> & -> & S2).
  apply cols_inj in Ec; [|assumption..]. apply cols_inj in Ec'; [|assumption..]. subst c c'.
  destruct (one_unround w3 r3 _ _ _ _ (cols_square d Wd) (cols_square d' Wd') E3 E3')
    as (e & e' & f & f' & We & We' & Wf & Wf' & Ee & Ee' & -> & -> & S3).
  apply cols_inj in Ee; [|assumption..]. apply cols_inj in Ee'; [|assumption..]. subst e e'.
  rewrite !differing_total, <- (reflect_total (pat a a')), <- (reflect_total (pat b b')),
    <- (reflect_total (pat d d')), <- (reflect_total (pat f f')).
  apply (four_rounds _ _ _ _ S1 S2 S3). rewrite reflect_total. apply (total_some a a'); assumption || congruence.
Qed.
Print Assumptions C88_four_rounds_back.

(** Two states that differ in one byte, in the first rounds of AES-128 with the key
    of FIPS-197, appendix B: 1, 4, 16 and again 16 bytes. *)
Example C88_example :
  let key := [0x2b; 0x7e; 0x15; 0x16; 0x28; 0xae; 0xd2; 0xa6; 0xab; 0xf7; 0x15; 0x88; 0x09; 0xcf; 0x4f; 0x3c] in
  let s := [[0; 1; 2; 3]; [4; 5; 6; 7]; [8; 9; 10; 11]; [12; 13; 14; 15]] in
  let s' := [[0; 1; 2; 3]; [4; 5; 6; 7]; [8; 9; 74; 11]; [12; 13; 14; 15]] in
  octet_square s /\ octet_square s' /\ s <> s' /\
  match aes_init aes_new key with
  | Ret (_, mkAES 10 (Some w)) =>
      match round_body w 1 s, round_body w 1 s' with
      | Ret t, Ret t' =>
          match round_body w 2 t, round_body w 2 t' with
          | Ret u, Ret u' =>
              match round_body w 3 u, round_body w 3 u' with
              | Ret v, Ret v' => map (fun p => differing (fst p) (snd p)) [(s, s'); (t, t'); (u, u'); (v, v')]
              | _, _ => []
              end
          | _, _ => []
          end
      | _, _ => []
      end
  | _ => []
  end = [1; 4; 16; 16]%nat.
Proof.
  split; [split; [reflexivity|repeat constructor]|]. split; [split; [reflexivity|repeat constructor]|].
  split; [discriminate|]. vm_compute. reflexivity.
Qed.
