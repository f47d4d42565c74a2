(** The tree of src/pbkdf2.rs does what Model/Pbkdf2.v says. *)
From Coq Require Import NArith List String Bool Lia ZifyBool ZifyNat ZifyN.
From Verif Require Import Rust.
From Verif.Model Require Import Sha256 Hmac Pbkdf2.
From Verif.Source Require Import Syntax Interp Tree.
From Verif.Proofs Require Import Base SourceBase SourceSha256 SourceHasher SourceHmac.
Import ListNotations.
Local Open Scope string_scope.
Local Open Scope N_scope.

Definition mac_ok (m : HMac) : Prop := hasher_ok (inner m) /\ hasher_ok (outer m).

Lemma hmac_new_fuel_ok k T : forall key m, hmac_new_fuel k T key = Ret m -> mac_ok m.
Proof.
  induction k as [|k IH]; intros key m E; [discriminate|].
  destruct (64 <? len key) eqn:Ek.
  - rewrite hmac_new_long in E by assumption.
    destruct (sha256_update _ _ _) as [s| |]; try discriminate E. cbn [bind] in E.
    destruct (sha256_digest _ _) as [[d s']| |]; try discriminate E. cbn [bind] in E.
    exact (IH _ _ E).
  - cbn [hmac_new_fuel] in E. unfold BLOCK_SIZE in E. rewrite Ek in E. inv_binds E.
    injection E as <-. split; cbn [inner outer]; hok.
Qed.
Lemma hmac_new_ok T key m : hmac_new T key = Ret m -> mac_ok m.
Proof. apply hmac_new_fuel_ok. Qed.
Lemma hmac_update_ok T m d m' : mac_ok m -> hmac_update T m d = Ret m' -> mac_ok m'.
Proof.
  unfold hmac_update. intros [Hi Ho] E. inv_binds E. injection E as <-.
  split; cbn [inner outer]; hok.
Qed.
Lemma hmac_digest_ok T m d m' : mac_ok m -> hmac_digest T m = Ret (d, m') ->
  mac_ok m' /\ List.length d = 32%nat.
Proof.
  unfold hmac_digest. intros [Hi Ho] E.
  destruct (sha256_digest T (inner m)) as [[d1 i1]| |] eqn:E1; try discriminate E. cbn [bind] in E.
  destruct (sha256_update T (outer m) d1) as [o1| |] eqn:E2; try discriminate E. cbn [bind] in E.
  destruct (sha256_digest T o1) as [[d2 o2]| |] eqn:E3; try discriminate E. cbn [bind] in E.
  injection E as <- <-. split; [split; cbn [inner outer]; hok|].
  refine (proj2 (digest_ok _ _ _ _ _ E3)). hok.
Qed.

Lemma src_hmac_update' T n m data : mac_ok m ->
  run T (S (S (S (S (S n))))) "hmac::HMac::update" [hmac_val m; VNums U8 data] =
  let* m' := hmac_update T m data in Ret (VUnit, [Some (hmac_val m'); None]).
Proof. intros [H _]. apply src_hmac_update. exact H. Qed.
Lemma src_hmac_digest' T n m : mac_ok m ->
  run T (S (S (S (S (S n))))) "hmac::HMac::digest" [hmac_val m] =
  let* (d, m') := hmac_digest T m in Ret (VNums U8 d, [Some (hmac_val m')]).
Proof. intros [H H']. apply src_hmac_digest; assumption. Qed.

Ltac mok :=
  lazymatch goal with
  | H : mac_ok ?s |- mac_ok ?s => exact H
  | H : hmac_new _ _ = Ret ?s |- mac_ok ?s => exact (hmac_new_ok _ _ _ H)
  | H : hmac_update _ ?s0 _ = Ret ?s |- mac_ok ?s =>
      refine (hmac_update_ok _ _ _ _ _ H); clear H; mok
  | H : hmac_digest _ ?s0 = Ret (?d, ?s) |- mac_ok ?s =>
      refine (proj1 (hmac_digest_ok _ _ _ _ _ H)); clear H; mok
  end.

Lemma idx_cases {A} (l : list A) i : (exists x, idx l i = Ret x) \/ idx l i = Panic.
Proof. unfold idx. destruct (nth_error l (N.to_nat i)); eauto. Qed.

Lemma xor_us_loop t u :
  for_n (N.to_nat (len u - 0)) 0 (fun k t =>
    let* a := idx t k in let* b := idx u k in upd t k (N.lxor a b)) t = xor_us t u.
Proof. reflexivity. Qed.

Local Opaque amount run constant idx upd slice uadd umul usub udiv urem len N.mul N.add N.sub N.lor
  N.lxor N.land shl32 shr not32 wrapping_add32 N.eqb N.ltb N.leb N.min as_u8 as_u64 N.shiftl N.shiftr
  copy_from_slice hmac_new hmac_update hmac_digest xor_us.
Ltac call_rule ::= first
  [ rewrite src_hmac_new | rewrite src_hmac_update' by mok | rewrite src_hmac_digest' by mok ].
Ltac prim_rule x ::= lazymatch goal with H : x = Panic |- _ => rewrite H end.

Lemma src_pbkdf2 T n password salt c out :
  run T (S (S (S (S (S (S (S n))))))) "pbkdf2::pbkdf2_sha256"
    [VNums U8 password; VNums U8 salt; VInt Usize c; VNums U8 out] =
  let* o := pbkdf2_sha256 T password salt c out in
  Ret (VUnit, [None; None; None; Some (VNums U8 o)]).
Proof.
  enter. unfold pbkdf2_sha256, DIGEST_SIZE. cbv zeta.
  repeat go.
  loop_count (VInt Usize)
    (fun o : list N => [("l", VInt Usize a1); ("password", VNums U8 password); ("salt", VNums U8 salt);
       ("c", VInt Usize c); ("out", VRef (mkPath "*out" [])); ("*out", VNums U8 o)])
    (fun (i : N) (out : list N) =>
      let* t := pbkdf2_block T password salt c i in
      let* i1 := usub T i 1 in
      let* start := umul T i1 32 in
      let* e := umul T i 32 in
      let* n := usub T (N.min e (len out)) start in
      let* src := slice_to t n in
      with_slice out start (N.min e (len out)) (fun d => copy_from_slice d src))
    (fun (_ : N) (_ : list N) => True) (N.to_nat (a1 + 1 - 1)) 1 out.
  { intros i o Hi _. unfold DIGEST_SIZE, pbkdf2_block, ctr_bytes, slice_to, with_slice. cbv beta zeta.
    repeat go. match goal with Hx : hmac_digest _ _ = Ret (?u0, ?m0) |- _ => rename u0 into u; rename m0 into m' end.
    loop_count (VInt Usize)
      (fun ut : list N * list N => [("t", VNums U8 (snd ut)); ("u", VNums U8 (fst ut));
         ("hmac", hmac_val m');
         ("ctr", VNums U8 [as_u8 (shr i 24); as_u8 (shr i 16); as_u8 (shr i 8); as_u8 i]);
         ("i", VInt Usize i); ("l", VInt Usize a1);
         ("password", VNums U8 password); ("salt", VNums U8 salt);
         ("c", VInt Usize c); ("out", VRef (mkPath "*out" [])); ("*out", VNums U8 o)])
      (fun (_ : N) (ut : list N * list N) =>
        let '(u, t) := ut in
        let* hmac := hmac_update T a2 u in
        let* (u, _) := hmac_digest T hmac in
        let* t := xor_us t u in
        Ret (u, t))
      (fun (_ : N) (_ : list N * list N) => True) (N.to_nat (c + 1 - 2)) 2 (u, u).
    { intros j [u1 t1] Hj _. cbv beta zeta. cbn [fst snd].
      repeat go.
      loop_count (VInt Usize)
        (fun t : list N => [("hmac", hmac_val h); ("_j", VInt Usize j);
           ("t", VNums U8 t); ("u", VNums U8 l); ("hmac", hmac_val m');
           ("ctr", VNums U8 [as_u8 (shr i 24); as_u8 (shr i 16); as_u8 (shr i 8); as_u8 i]);
           ("i", VInt Usize i); ("l", VInt Usize a1);
           ("password", VNums U8 password); ("salt", VNums U8 salt);
           ("c", VInt Usize c); ("out", VRef (mkPath "*out" [])); ("*out", VNums U8 o)])
        (fun (k : N) (t : list N) =>
          let* a := idx t k in let* b := idx l k in upd t k (N.lxor a b))
        (fun (_ : N) (_ : list N) => True) (N.to_nat (len l - 0)) 0 t1.
      { intros k s Hk _. cbv beta zeta.
        destruct (idx_cases s k) as [[x Ex]|Ex]; destruct (idx_cases l k) as [[y Ey]|Ey];
          rewrite Ex; cbn [bind]; rewrite ?Ey; cbn [bind]; steps. }
      { auto. } { auto. } { reflexivity. }
      rewrite xor_us_loop. steps. }
    { auto. } { auto. } { reflexivity. }
    change (for_range_incl 2 c ?f ?x) with (for_n (N.to_nat (c + 1 - 2)) 2 f x).
    match goal with |- context [for_n ?a ?b ?f ?s] => destruct (for_n a b f s) as [[u' t']| |] end;
      [|reflexivity..]. cbn [bind].
    steps. }
  { auto. } { auto. } { reflexivity. }
  change (for_range_incl 1 a1 ?f out) with (for_n (N.to_nat (a1 + 1 - 1)) 1 f out).
  match goal with |- context [for_n ?a ?b ?f ?s] => destruct (for_n a b f s) as [o| |] end;
    [|reflexivity..].
  steps.
Qed.
