(** C100-C103: the text of the hashing functions.  Here the program is not the
    model of Model/ but the syntax trees that tools/gen_source.py makes of the
    files of /repo/src (Source/Tree.v), run by an interpreter (Source/Interp.v). *)
From Coq Require Import NArith String List Bool Arith Lia ZifyBool ZifyNat ZifyN.
From Verif Require Import Rust Calls.
From Verif.Source Require Import Syntax Interp Tree Calls.
From Verif.Model Require Sha256 Hmac Pbkdf2 Salsa20.
From Verif.Spec Require Import Octets.
From Verif.Spec Require Hasher Mac Sha256 Hmac Pbkdf2 Salsa20.
From Verif.Proofs Require Import SourceText.
From Verif.Proofs Require SourcePbkdf2 SourceSalsa20 Pbkdf2.
From Verif.Props Require Sha256 Hmac Pbkdf2 Salsa20.
Import ListNotations.
Local Open Scope string_scope.
Local Open Scope N_scope.
Local Open Scope list_scope.
Local Opaque run.

(** Feeding chunks, then asking for the digest. *)
Definition feed (chunks : list (list N)) : list Hasher.call :=
  map Hasher.Update chunks ++ [Hasher.Digest].
Definition replies (chunks : list (list N)) (d : list N) : list (res (list N)) :=
  repeat (Ret []) (List.length chunks) ++ [Ret d].

Lemma feed_ok chunks : octets (concat chunks) -> Forall sha_call_ok (feed chunks).
Proof.
  unfold feed. intros H. apply Forall_app. split; [|repeat constructor].
  induction chunks as [|c cs IH]; [constructor|]. cbn [concat map] in *. apply Forall_app in H.
  destruct H. constructor; [assumption|apply IH; assumption].
Qed.
Lemma fed_sha T chunks d s' : forall s s0, sha_updates T s chunks = Ret s0 ->
  Model.Sha256.sha256_digest T s0 = Ret (d, s') ->
  map reply (sha_run T (feed chunks) s) = replies chunks d.
Proof.
  unfold feed, replies. induction chunks as [|c cs IH]; intros s s0 E Ed.
  - injection E as <-. cbn [map app sha_run]. rewrite Ed. reflexivity.
  - unfold sha_updates in E. cbn [for_each] in E. cbn [map app sha_run List.length repeat].
    destruct (Model.Sha256.sha256_update T s c) as [s1| |]; try discriminate E.
    cbn [map reply]. f_equal. exact (IH s1 s0 E Ed).
Qed.
Lemma fed_mac T chunks d s' : forall s s0, hmac_updates T s chunks = Ret s0 ->
  Model.Hmac.hmac_digest T s0 = Ret (d, s') ->
  map reply (hmac_run T (feed chunks) s) = replies chunks d.
Proof.
  unfold feed, replies. induction chunks as [|c cs IH]; intros s s0 E Ed.
  - injection E as <-. cbn [map app hmac_run]. rewrite Ed. reflexivity.
  - unfold hmac_updates in E. cbn [for_each] in E. cbn [map app hmac_run List.length repeat].
    destruct (Model.Hmac.hmac_update T s c) as [s1| |]; try discriminate E.
    cbn [map reply]. f_equal. exact (IH s1 s0 E Ed).
Qed.

(** C100. src/sha256.rs: every history of calls returns what the hasher of the
    specification replies, and panics where it gives up; the interpreter never
    gets stuck. *)
Theorem C100_text_history : forall T fuel calls,
  (4 <= fuel)%nat -> Forall sha_call_ok calls ->
  life T fuel "sha256::SHA256" [] calls =
  map reply (Hasher.results (usize_mod T) (overflow_checks T) calls Hasher.fresh).
Proof. exact sha_life. Qed.
Print Assumptions C100_text_history.

(** ... so messages in any number of pieces get their SHA-256 digest. *)
Theorem C100_text_sha256 : forall T fuel chunks,
  (4 <= fuel)%nat -> octets (concat chunks) ->
  8 * N.of_nat (List.length (concat chunks)) < usize_mod T ->
  life T fuel "sha256::SHA256" [] (feed chunks) =
  replies chunks (Spec.Sha256.sha256 (concat chunks)).
Proof.
  intros T fuel chunks Hf Ho Hl.
  rewrite C100_text_history by (assumption || exact (feed_ok chunks Ho)).
  rewrite <- (Props.Sha256.C05_history_exact T _ (feed_ok chunks Ho)).
  destruct (Props.Sha256.C01_sha256_conforms T chunks Ho Hl) as (s & s' & E & Ed).
  exact (fed_sha T chunks _ s' _ s E Ed).
Qed.
Print Assumptions C100_text_sha256.

(** "abc" in two pieces on a 32-bit target, down to the number FIPS 180-4 prints. *)
Example C100_example :
  exists d, life (mkTarget W32 true) 4 "sha256::SHA256" [] (feed [[97]; [98; 99]]) =
    [Ret []; Ret []; Ret d] /\
  be_num d = 0xba7816bf8f01cfea414140de5dae2223b00361a396177a9cb410ff61f20015ad.
Proof.
  exists (Spec.Sha256.sha256 [97; 98; 99]).
  assert (Ho : octets (concat [[97]; [98; 99]])) by repeat constructor.
  split; [apply (C100_text_sha256 (mkTarget W32 true) 4 [[97]; [98; 99]] ltac:(lia) Ho); reflexivity|].
  destruct Props.Sha256.C01_example as (_ & Hl & E).
  destruct (Props.Sha256.C01_sha256_conforms (mkTarget W32 true) [[97]; [98; 99]] Ho Hl)
    as (s & s' & E1 & E2).
  rewrite E1, E2 in E. exact E.
Qed.

(** C101. src/hmac.rs, likewise, for every key. *)
Theorem C101_text_history : forall T fuel key calls,
  (6 <= fuel)%nat -> octets key -> Forall sha_call_ok calls ->
  life T fuel "hmac::HMac" [VNums U8 key] calls =
  match Mac.new (usize_mod T) (overflow_checks T) key with
  | Some a => map reply (Mac.mac_results (usize_mod T) (overflow_checks T) calls a)
  | None => [Panic]
  end.
Proof. exact hmac_life. Qed.
Print Assumptions C101_text_history.

Theorem C101_text_hmac : forall T fuel key chunks,
  (6 <= fuel)%nat -> octets key -> octets (concat chunks) ->
  8 * N.of_nat (List.length key) < usize_mod T ->
  8 * N.of_nat (64 + List.length (concat chunks)) < usize_mod T ->
  life T fuel "hmac::HMac" [VNums U8 key] (feed chunks) =
  replies chunks (Spec.Hmac.hmac key (concat chunks)).
Proof.
  intros T fuel key chunks Hf Hk Ho Hl Hl'.
  rewrite C101_text_history by (assumption || exact (feed_ok chunks Ho)).
  pose proof (Props.Hmac.C09_history_exact T key _ Hk (feed_ok chunks Ho)) as Hh.
  destruct (Props.Hmac.C06_hmac_conforms T key chunks Hk Ho Hl Hl') as (m & m' & m'' & E & E' & Ed).
  rewrite E in Hh. destruct Hh as (a & -> & Hr). rewrite <- Hr.
  exact (fed_mac T chunks _ m'' _ m' E' Ed).
Qed.
Print Assumptions C101_text_hmac.

(** RFC 4231, test case 2, in two pieces. *)
Example C101_example :
  let what := [119; 104; 97; 116; 32; 100; 111] in
  let ya_want := [32; 121; 97; 32; 119; 97; 110; 116; 32; 102; 111; 114; 32; 110; 111; 116;
                  104; 105; 110; 103; 63] in
  exists d, life (mkTarget W32 true) 6 "hmac::HMac" [VNums U8 [74; 101; 102; 101]]
      (feed [what; []; ya_want]) = [Ret []; Ret []; Ret []; Ret d] /\
    be_num d = 0x5bdcc146bf60754e6a042426089575c75a003f089d2739839dec58b964ec3843.
Proof.
  destruct Props.Hmac.C06_example as (Hk & Hc & H1 & H2 & E). cbv zeta.
  match type of E with context [hmac_updates _ _ ?cs] =>
    exists (Spec.Hmac.hmac [74; 101; 102; 101] (concat cs)); split;
      [exact (C101_text_hmac _ 6 _ cs ltac:(lia) Hk Hc H1 H2)|] end.
  destruct (Props.Hmac.C06_hmac_conforms _ _ _ Hk Hc H1 H2) as (m & m1 & m2 & E1 & E2 & E3).
  rewrite E1, E2, E3 in E. exact E.
Qed.

(** C102. src/pbkdf2.rs: within the limits of RFC 2898 the buffer behind the
    mutable reference holds the derived key afterwards; every byte of it is new. *)
Theorem C102_text_pbkdf2 : forall T fuel P S c out,
  (7 <= fuel)%nat -> octets P -> octets S -> Props.Pbkdf2.sizes_ok T P S out ->
  1 <= c -> N.of_nat (List.length out) <= (2 ^ 32 - 1) * 32 ->
  run T fuel "pbkdf2::pbkdf2_sha256" [VNums U8 P; VNums U8 S; VInt Usize c; VNums U8 out] =
  Ret (VUnit, [None; None; None; Some (VNums U8 (Spec.Pbkdf2.pbkdf2 P S c (List.length out)))]).
Proof.
  intros T fuel P Q c out Hf HP HS Hs Hc Hl. destruct fuel as [|[|[|[|[|[|[|n]]]]]]]; try lia.
  rewrite SourcePbkdf2.src_pbkdf2, Props.Pbkdf2.C10_pbkdf2_conforms by assumption. reflexivity.
Qed.
Print Assumptions C102_text_pbkdf2.

(** Whatever the sizes, the text does what the model does; so C11-C15 and C99
    hold of the text too. *)
Theorem C102_text_is_model : forall T fuel P S c out,
  (7 <= fuel)%nat ->
  run T fuel "pbkdf2::pbkdf2_sha256" [VNums U8 P; VNums U8 S; VInt Usize c; VNums U8 out] =
  let* o := Model.Pbkdf2.pbkdf2_sha256 T P S c out in
  Ret (VUnit, [None; None; None; Some (VNums U8 o)]).
Proof.
  intros T fuel P Q c out Hf. destruct fuel as [|[|[|[|[|[|[|n]]]]]]]; try lia.
  apply SourcePbkdf2.src_pbkdf2.
Qed.
Print Assumptions C102_text_is_model.

(** The published vector for ("password", "salt", 2), and eight bytes more. *)
Example C102_example :
  exists dk, run (mkTarget W64 true) 7 "pbkdf2::pbkdf2_sha256"
      [VNums U8 [112; 97; 115; 115; 119; 111; 114; 100]; VNums U8 [115; 97; 108; 116]; VInt Usize 2;
       VNums U8 (repeat 0 40)] =
    Ret (VUnit, [None; None; None; Some (VNums U8 dk)]) /\
  be_num (firstn 32 dk) = 0xae4d0c95af6b46d32d0adff928f06dd02a303f8ef3c251dfd6e2d85a95474c43.
Proof.
  destruct Props.Pbkdf2.C10_example as (_ & _ & _ & _ & _ & E). revert E.
  rewrite C102_text_is_model by lia.
  match goal with |- context [Model.Pbkdf2.pbkdf2_sha256 ?T ?p ?s ?c ?o] =>
    generalize (Model.Pbkdf2.pbkdf2_sha256 T p s c o) end.
  intros [dk| |] E; [|discriminate E..]. exists dk. split; [reflexivity|exact E].
Qed.

(** C103. src/salsa20.rs: 64 bytes in, 64 bytes out, any number of double rounds
    that fits a usize; ... *)
Theorem C103_text_salsa20 : forall T fuel x k out,
  (5 <= fuel)%nat -> octets x -> List.length x = 64%nat -> List.length out = 64%nat ->
  run T fuel "salsa20::salsa20" [VNums U8 x; VInt Usize k; VNums U8 out] =
  Ret (VUnit, [None; None; Some (VNums U8 (Spec.Salsa20.salsa20 k x))]).
Proof.
  intros T fuel x k out Hf Hx Hl Ho. destruct fuel as [|[|[|[|[|n]]]]]; try lia.
  rewrite SourceSalsa20.src_salsa20, Props.Salsa20.C16_salsa20_conforms by assumption. reflexivity.
Qed.
Print Assumptions C103_text_salsa20.

(** ... and with buffers of any length it panics exactly if one is shorter. *)
Theorem C103_text_panics : forall T fuel x k out,
  (5 <= fuel)%nat -> octets x ->
  (run T fuel "salsa20::salsa20" [VNums U8 x; VInt Usize k; VNums U8 out] = Panic <->
   (List.length x < 64 \/ List.length out < 64)%nat) /\
  run T fuel "salsa20::salsa20" [VNums U8 x; VInt Usize k; VNums U8 out] <> Diverge.
Proof.
  intros T fuel x k out Hf Hx. destruct fuel as [|[|[|[|[|n]]]]]; try lia.
  rewrite SourceSalsa20.src_salsa20.
  pose proof (Props.Salsa20.C17_panics_iff_short x k out Hx) as Hp.
  pose proof (Props.Salsa20.C17_first_block_only x k out Hx) as Hr.
  destruct (Model.Salsa20.salsa20 x k out) as [o| |] eqn:E; cbn [bind].
  - split; [|discriminate]. split; [discriminate|]. intros H. apply Hp in H. discriminate H.
  - split; [|discriminate]. split; [intros _; apply Hp; reflexivity|reflexivity].
  - exfalso.
    destruct (le_lt_dec 64 (List.length x)), (le_lt_dec 64 (List.length out));
      [destruct Hr as (b & _ & _ & _ & X); [assumption..|discriminate X]|
       assert (X : Diverge = Panic :> res (list N)) by (apply Hp; lia); discriminate X..].
Qed.
Print Assumptions C103_text_panics.

(** The vector of the scrypt draft. *)
Example C103_example :
  run (mkTarget W32 false) 5 "salsa20::salsa20"
    [VNums U8 Props.Salsa20.draft_input; VInt Usize 4; VNums U8 (repeat 9 64)] =
  Ret (VUnit, [None; None; Some (VNums U8 Props.Salsa20.draft_output)]).
Proof.
  rewrite C103_text_salsa20 by (lia || reflexivity || exact (proj1 Props.Salsa20.C16_example)).
  rewrite (proj2 (proj2 (proj2 Props.Salsa20.C16_example))). reflexivity.
Qed.
