(** The trees of src/scrypt.rs do what Model/Scrypt.v says. *)
From Coq Require Import NArith List String Bool Lia ZifyBool ZifyNat ZifyN.
From Verif Require Import Rust.
From Verif.Model Require Import Pbkdf2 Salsa20 Scrypt.
From Verif.Source Require Import Syntax Interp Tree Objects.
From Verif.Proofs Require Import Base SourceBase SourceSalsa20 SourcePbkdf2.
Import ListNotations.
Local Open Scope string_scope.
Local Open Scope N_scope.

(** * Lists of blocks *)

Lemma zip_map {A B} (f : A -> val) (g : B -> val) (a : list A) (b : list B) :
  map (fun x : val * val => VTup [fst x; snd x]) (combine (map f a) (map g b)) =
  map (fun p => VTup [f (fst p); g (snd p)]) (combine a b).
Proof.
  revert b. induction a as [|x a IH]; intros [|y b]; cbn [map combine fst snd]; try reflexivity.
  rewrite IH. reflexivity.
Qed.
Lemma map_res_pure {A B} (f : A -> B) l : map_res (fun x => Ret (f x)) l = Ret (map f l).
Proof. induction l as [|x l IH]; [reflexivity|]. cbn [map_res map bind]. rewrite IH. reflexivity. Qed.
Lemma zip_xor_combine a b : zip_xor a b = map (fun p => N.lxor (fst p) (snd p)) (combine a b).
Proof. revert b. induction a as [|x a IH]; intros [|y b]; cbn; f_equal; auto. Qed.
Lemma xor_blocks_combine a b :
  xor_blocks a b = map (fun p => block_xor (fst p) (snd p)) (combine a b).
Proof. revert b. induction a as [|x a IH]; intros [|y b]; cbn; f_equal; auto. Qed.

(** Dealing out by parity. *)
Definition deal (p : N * Block) (s : list Block * list Block) : res (list Block * list Block) :=
  let* m := urem (fst p) 2 in
  if m =? 0 then Ret (fst s ++ [snd p], snd s)%list else Ret (fst s, snd s ++ [snd p])%list.
Lemma deal_all y i s :
  for_each (combine (count (List.length y) i) y) deal s =
  let '(hd, tl) := split_parity i y in Ret (fst s ++ hd, snd s ++ tl)%list.
Proof.
  revert i s. induction y as [|e y IH]; intros i [h t];
    cbn [List.length count combine for_each split_parity fst snd].
  - rewrite !app_nil_r. reflexivity.
  - unfold deal at 1. cbn [fst snd]. unfold urem. cbn [N.eqb bind].
    specialize (IH (N.succ i)). destruct (split_parity (N.succ i) y) as [hd tl].
    destruct (i mod 2 =? 0); cbn [bind]; rewrite IH; cbn [fst snd];
      rewrite <- app_assoc; reflexivity.
Qed.
Lemma map_res_map_pure {A B C} (f : A -> B) (g : B -> res C) (h : A -> C) l :
  (forall x, g (f x) = Ret (h x)) -> map_res g (map f l) = Ret (map h l).
Proof.
  intros H. induction l as [|x l IH]; [reflexivity|]. cbn [map_res map]. rewrite H, IH. reflexivity.
Qed.
Lemma flatten_blocks b :
  map_res items (map (fun x => VSeq (map (VNums U8) x)) b) = Ret (map (map (VNums U8)) b).
Proof. apply map_res_map_pure. reflexivity. Qed.
Lemma flatten_bytes b :
  map_res items (map (VNums U8) b) = Ret (map (map (VInt U8)) b).
Proof. apply map_res_map_pure. reflexivity. Qed.

Local Opaque amount run idx upd slice uadd umul usub udiv urem len N.mul N.add N.sub N.lor N.lxor N.land shl64 shr N.eqb N.ltb N.leb N.min as_usize N.shiftl N.shiftr alloc chunks_exact map_res List.concat.

(** Replacing the [map] that is next by one of the model. *)
Ltac map_with f g h l' :=
  lazymatch goal with |- context [map_items ?B ?l ?r] =>
    let H := fresh "L" in
    assert (H : map_items B l r = let* bs := map_res g l' in Ret (Val (VSeq (map h bs)), r));
    [ replace l with (map f l'); [apply (map_items_map f B g h l' r)|]
    | rewrite H; clear H ]
  end.

Definition scrypt_error_name (e : ScryptError) : string :=
  match e with
  | RIsTooSmall => "scrypt::ScryptError::RIsTooSmall"
  | NIsTooSmall => "scrypt::ScryptError::NIsTooSmall"
  | NIsNotAPowerOfTwo => "scrypt::ScryptError::NIsNotAPowerOfTwo"
  | PIsTooSmall => "scrypt::ScryptError::PIsTooSmall"
  end.

Lemma src_scrypt_description T n e :
  run T (S n) "scrypt::ScryptError::description" [VCon (scrypt_error_name e) []] =
  Ret (VStr (scrypt_error_description e), [None]).
Proof. destruct e; enter; steps. Qed.

Lemma src_block_xor T n a b :
  run T (S n) "scrypt::block_xor" [VNums U8 a; VNums U8 b] =
  Ret (VNums U8 (block_xor a b), [None; None]).
Proof.
  enter. go. rewrite zip_map.
  map_with (fun p : N * N => VTup [VInt U8 (fst p); VInt U8 (snd p)])
    (fun p : N * N => Ret (N.lxor (fst p) (snd p))) (VInt U8) (combine a b).
  - intros [x y] _. steps.
  - reflexivity.
  - rewrite map_res_pure. unfold block_xor. rewrite zip_xor_combine.
    micros.
    rewrite map_res_num. steps.
Qed.
Local Opaque block_xor.

Ltac prim_rule x ::=
  lazymatch x with
  | idx (map ?f ?l) ?i => rewrite (idx_map f l i)
  | usub ?T (len (map ?f ?l)) ?k => rewrite (len_map f l)
  end.

Lemma src_integerify T n x :
  run T (S n) "scrypt::integerify" [VSeq (map (VNums U8) x)] =
  let* k := integerify T x in Ret (VInt U64 k, [None]).
Proof.
  enter. unfold integerify, slice_from, Block. change SALSA_BLOCK_SIZE with 64. steps.
Qed.
Local Opaque integerify.

Lemma src_scrypt_new T f r n p :
  run T (S f) "scrypt::Scrypt::new" [VInt Usize r; VInt Usize n; VInt Usize p] =
  Ret (VStruct "scrypt::Scrypt" [("r", VInt Usize r); ("n", VInt Usize n); ("p", VInt Usize p)],
       [None; None; None]).
Proof. enter. steps. Qed.

Local Opaque salsa20.
Ltac call_rule ::= first [rewrite src_block_xor | rewrite src_salsa20].

Lemma src_block_mix T f r n p b :
  run T (S (S (S (S (S (S f)))))) "scrypt::Scrypt::block_mix"
    [VStruct "scrypt::Scrypt" [("r", VInt Usize r); ("n", VInt Usize n); ("p", VInt Usize p)];
     VSeq (map (VNums U8) b)] =
  let* o := block_mix T (mkScrypt r n p) b in
  Ret (VSeq (map (VNums U8) o), [None; None]).
Proof.
  enter. unfold block_mix, Block, SALSA_ROUNDS. cbn [sr].
  do 8 go.
  loop_each (VNums U8)
    (fun xy : list N * list (list N) =>
       [("y", VSeq (map (VNums U8) (snd xy))); ("x", VNums U8 (fst xy));
        ("self", VStruct "scrypt::Scrypt"
                   [("r", VInt Usize r); ("n", VInt Usize n); ("p", VInt Usize p)]);
        ("b", VSeq (map (VNums U8) b))])
    (fun b_elem (xy : list N * list (list N)) =>
       let '(x, y) := xy in
       let t := block_xor x b_elem in
       let* x := salsa20 t 4 x in
       Ret (x, y ++ [x])%list)
    (fun _ : list N * list (list N) => True) b (a1, @nil (list N)).
  - intros e [x y] _ _. cbv zeta. repeat go. cbn [fst snd]. rewrite map_app. reflexivity.
  - trivial.
  - exact I.
  - reflexivity.
  - destruct (for_each b _ (a1, [])) as [[x y]| |]; [|reflexivity|reflexivity].
    cbn [bind fst snd]. repeat go.
    loop_each (fun q : N * list N => VTup [VInt Usize (fst q); VNums U8 (snd q)])
      (fun s : list (list N) * list (list N) =>
         [("bs_tail", VSeq (map (VNums U8) (snd s))); ("bs_head", VSeq (map (VNums U8) (fst s)));
          ("y", VSeq (map (VNums U8) y)); ("x", VNums U8 x);
          ("self", VStruct "scrypt::Scrypt"
                     [("r", VInt Usize r); ("n", VInt Usize n); ("p", VInt Usize p)]);
          ("b", VSeq (map (VNums U8) b))])
      deal (fun _ : list (list N) * list (list N) => True)
      (combine (count (List.length y) 0) y) (@nil (list N), @nil (list N)).
    + intros [i e] [h t] _ _. unfold deal, Block. cbn [fst snd]. repeat go;
        cbn [fst snd]; rewrite map_app; reflexivity.
    + trivial.
    + exact I.
    + symmetry. rewrite map_length.
      transitivity (map (fun x : N * val => VTup [VInt Usize (fst x); snd x])
        (map (fun q => (fst q, VNums U8 (snd q))) (combine (count (List.length y) 0) y))).
      * f_equal. generalize (count (List.length y) 0). clear. intros l. revert y.
        induction l as [|c l IH]; intros [|z y]; cbn [map combine fst snd]; f_equal; auto.
      * rewrite map_map. reflexivity.
    + rewrite deal_all. destruct (split_parity 0 y) as [hd tl]. cbn [bind fst snd app].
      repeat go. rewrite map_app. reflexivity.
Qed.
Local Opaque block_mix.

Ltac call_rule ::=
  first [rewrite src_block_xor | rewrite src_integerify | rewrite src_block_mix].

Lemma src_ro_mix T f r n p b :
  run T (S (S (S (S (S (S (S f))))))) "scrypt::Scrypt::ro_mix"
    [VStruct "scrypt::Scrypt" [("r", VInt Usize r); ("n", VInt Usize n); ("p", VInt Usize p)];
     VSeq (map (VNums U8) b)] =
  let* o := ro_mix T (mkScrypt r n p) b in
  Ret (VSeq (map (VNums U8) o), [None; None]).
Proof.
  enter. unfold ro_mix, Block, for_range. cbn [sr sn].
  repeat go.
  loop_count (VInt Usize)
    (fun xv : list (list N) * list (list (list N)) =>
       [("v", VSeq (map (fun x => VSeq (map (VNums U8) x)) (snd xv)));
        ("x", VSeq (map (VNums U8) (fst xv)));
        ("self", VStruct "scrypt::Scrypt"
                   [("r", VInt Usize r); ("n", VInt Usize n); ("p", VInt Usize p)]);
        ("b", VSeq (map (VNums U8) b))])
    (fun (_ : N) (xv : list (list N) * list (list (list N))) =>
       let '(x, v) := xv in
       let* t := block_mix T (mkScrypt r n p) x in
       Ret (t, v ++ [x])%list)
    (fun (_ : N) (_ : list (list N) * list (list (list N))) => True)
    (N.to_nat (n - 0)) 0 (b, @nil (list (list N))).
  - intros i [x v] _ _. cbn [fst snd]. repeat go. cbn [fst snd]. rewrite map_app. reflexivity.
  - trivial.
  - exact I.
  - reflexivity.
  - destruct (for_n _ 0 _ (b, [])) as [[x v]| |]; [|reflexivity|reflexivity].
    cbn [bind fst snd]. repeat go.
    loop_count (VInt Usize)
      (fun x : list (list N) =>
         [("v", VSeq (map (fun x => VSeq (map (VNums U8) x)) v));
          ("x", VSeq (map (VNums U8) x));
          ("self", VStruct "scrypt::Scrypt"
                     [("r", VInt Usize r); ("n", VInt Usize n); ("p", VInt Usize p)]);
          ("b", VSeq (map (VNums U8) b))])
      (fun (_ : N) (x : list (list N)) =>
         let* k := integerify T x in
         let* j := urem (as_usize T k) n in
         let* vj := idx v j in
         let t := xor_blocks x vj in
         block_mix T (mkScrypt r n p) t)
      (fun (_ : N) (_ : list (list N)) => True)
      (N.to_nat (n - 0)) 0 x.
    + clear x. intros i x _ _. cbv zeta. unfold Block. repeat go.
      rewrite zip_map.
      map_with (fun q : list N * list N => VTup [VNums U8 (fst q); VNums U8 (snd q)])
        (fun q : list N * list N => Ret (block_xor (fst q) (snd q))) (VNums U8) (combine x a2).
      * intros [y z] _. steps.
      * reflexivity.
      * rewrite map_res_pure, <- xor_blocks_combine. cbn [bind]. steps.
    + trivial.
    + exact I.
    + reflexivity.
    + destruct (for_n _ 0 _ x) as [o| |]; [|reflexivity|reflexivity]. steps.
Qed.
Local Opaque ro_mix pbkdf2_sha256.

Ltac prim_rule x ::=
  lazymatch x with
  | map_res items (map _ _) => rewrite flatten_blocks
  | map_res items (List.concat (map (map _) _)) => rewrite <- concat_map, flatten_bytes
  | map_res (num _) (List.concat (map (map _) _)) => rewrite <- concat_map, map_res_num
  end.
Ltac call_rule ::= first [rewrite src_pbkdf2 | rewrite src_ro_mix].

Definition scrypt_result (v : result unit ScryptError) : val :=
  match v with
  | Ok _ => VCon "Ok" [VUnit]
  | Err e => VCon "Err" [VCon (scrypt_error_name e) []]
  end.

Lemma src_derive T f r n p passphrase salt out :
  run T (S (S (S (S (S (S (S (S f)))))))) "scrypt::Scrypt::derive"
    [VStruct "scrypt::Scrypt" [("r", VInt Usize r); ("n", VInt Usize n); ("p", VInt Usize p)];
     VNums U8 passphrase; VNums U8 salt; VNums U8 out] =
  let* (v, o) := scrypt_derive T (mkScrypt r n p) passphrase salt out in
  Ret (scrypt_result v, [None; None; None; Some (VNums U8 o)]).
Proof.
  enter. unfold scrypt_derive, split_blocks, BLOCK_SIZE, PBKDF2_ROUNDS. cbn [sr sn sp].
  change (2 * 64) with 128.
  assert (U : umul T 2 64 = Ret 128) by (apply umul_ok; destruct T as [[] ?]; reflexivity).
  repeat go. all: try reflexivity.
  map_with (VNums U8) (fun chunk : list N => chunks_exact chunk 64)
    (fun x : list (list N) => VSeq (map (VNums U8) x)) a6.
  - intros c _. repeat go.
    map_with (VNums U8) (@Ret (list N)) (VNums U8) a7.
    + intros x _. steps.
    + reflexivity.
    + replace (map_res Ret a7) with (Ret a7)
        by (symmetry; exact (eq_trans (map_res_pure (fun x => x) a7) (f_equal Ret (map_id a7)))).
      steps.
  - reflexivity.
  - unfold Block.
    destruct (map_res (fun chunk : list N => chunks_exact chunk 64) a6) as [b| |];
      [|reflexivity|reflexivity].
    cbn [bind]. repeat go.
    map_with (fun x : list (list N) => VSeq (map (VNums U8) x)) (ro_mix T (mkScrypt r n p))
      (fun x : list (list N) => VSeq (map (VNums U8) x)) b.
    + intros x _. steps.
    + reflexivity.
    + unfold Block.
      match goal with |- _ = bind (bind ?m _) _ => destruct m as [o| |] end;
        [|reflexivity|reflexivity].
      cbn [bind]. steps.
Qed.

Lemma scrypt_derivation T fuel r n p passphrase salt out : (8 <= fuel)%nat ->
  derivation T fuel r n p passphrase salt out =
  let* (v, o) := scrypt_derive T (scrypt_new r n p) passphrase salt out in
  Ret (scrypt_result v, VNums U8 o).
Proof.
  intros H. do 8 (destruct fuel as [|fuel]; [lia|]). unfold derivation.
  rewrite src_scrypt_new. cbn [bind]. rewrite src_derive. unfold scrypt_new.
  destruct (scrypt_derive T _ passphrase salt out) as [[v o]| |]; reflexivity.
Qed.
