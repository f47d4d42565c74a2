(** Running syntax trees symbolically: the tactics and loop lemmas used to show
    that the trees of Source/Tree.v do what the model says. *)
From Coq Require Import NArith List String Bool Lia ZifyBool ZifyNat ZifyN.
From Verif Require Import Rust.
From Verif.Source Require Import Syntax Interp Tree.
From Verif.Source Require Export Calls.
From Verif.Proofs Require Import Base.
Import ListNotations.
Local Open Scope string_scope.
Local Open Scope N_scope.

(** * Outcomes *)

Lemma bind_ret {A} (m : res A) : bind m Ret = m.
Proof. destruct m; reflexivity. Qed.

(** * Loops *)

(** A loop of the tree runs in step with a loop of the model: [emb] says which
    variables the model's state stands for. *)
Lemma for_items_each {A St : Type} (f : A -> val) (B : val -> M) (emb : St -> env)
    (step : A -> St -> res St) (I : St -> Prop) (l : list A) (s : St) :
  (forall a s, In a l -> I s ->
     once (B (f a)) (emb s) = let* s' := step a s in Ret (Val VUnit, emb s')) ->
  (forall a s s', In a l -> I s -> step a s = Ret s' -> I s') ->
  I s ->
  for_items B (map f l) (emb s) = let* s' := for_each l step s in Ret (Val VUnit, emb s').
Proof.
  intros H Hi. revert s. induction l as [|a l IH]; intros s Is; cbn [for_items map for_each].
  - reflexivity.
  - unfold bindm. rewrite H by (auto; left; reflexivity).
    rewrite !bind_assoc.
    destruct (step a s) as [s'| |] eqn:E; [|reflexivity|reflexivity].
    cbn [bind]. apply IH.
    + intros; apply H; auto; right; assumption.
    + intros; eapply Hi; eauto; right; assumption.
    + eapply Hi; eauto. left; reflexivity.
Qed.

Lemma for_items_count {St : Type} (f : N -> val) (B : val -> M) (emb : St -> env)
    (step : N -> St -> res St) (I : N -> St -> Prop) (n : nat) (lo : N) (s : St) :
  (forall i s, lo <= i < lo + N.of_nat n -> I i s ->
     once (B (f i)) (emb s) = let* s' := step i s in Ret (Val VUnit, emb s')) ->
  (forall i s s', lo <= i < lo + N.of_nat n -> I i s -> step i s = Ret s' -> I (N.succ i) s') ->
  I lo s ->
  for_items B (map f (count n lo)) (emb s) =
  let* s' := for_n n lo step s in Ret (Val VUnit, emb s').
Proof.
  revert lo s. induction n as [|n IH]; intros lo s H Hi Is; cbn [for_items map for_n count].
  - reflexivity.
  - unfold bindm. rewrite H by (auto; lia).
    rewrite !bind_assoc.
    destruct (step lo s) as [s'| |] eqn:E; [|reflexivity|reflexivity].
    cbn [bind]. apply IH.
    + intros; apply H; auto; lia.
    + intros; eapply Hi; eauto; lia.
    + eapply Hi; eauto. lia.
Qed.

Lemma while_m_while {St : Type} (C B : M) (emb : St -> env) (c : St -> bool)
    (step : St -> res St) (fuel : nat) (s : St) :
  (forall s, C (emb s) = Ret (Val (VBool (c s)), emb s)) ->
  (forall s, c s = true -> once B (emb s) = let* s' := step s in Ret (Val VUnit, emb s')) ->
  while_m fuel C B (emb s) = let* s' := while_loop fuel c step s in Ret (Val VUnit, emb s').
Proof.
  intros Hc Hb. revert s. induction fuel as [|fuel IH]; intros s; cbn [while_m while_loop];
    unfold bindm at 1; rewrite Hc; cbn [bind]; destruct (c s) eqn:E; try reflexivity.
  unfold bindm. rewrite Hb by exact E. rewrite !bind_assoc.
  destruct (step s) as [s'| |]; [|reflexivity|reflexivity]. cbn [bind]. apply IH.
Qed.

(** Loops whose body can return from the function. *)
Lemma for_items_try {A St E : Type} (f : A -> val) (B : val -> M) (emb : St -> env)
    (step : A -> St -> res (result unit E * St)) (err : E -> val) (l : list A) (s : St)
    (I : St -> Prop) :
  (forall a s, In a l -> I s ->
     once (B (f a)) (emb s) =
     let* (r, s') := step a s in
     Ret (match r with Ok _ => Val VUnit | Err e => Return (err e) end, emb s')) ->
  (forall a s r s', In a l -> I s -> step a s = Ret (r, s') -> I s') ->
  I s ->
  for_items B (map f l) (emb s) =
  let* (r, s') := for_each_try l step s in
  Ret (match r with Ok _ => Val VUnit | Err e => Return (err e) end, emb s').
Proof.
  intros H Hi. revert s. induction l as [|a l IH]; intros s Is; cbn [for_items map for_each_try].
  - reflexivity.
  - unfold bindm. rewrite H by (auto; left; reflexivity).
    rewrite !bind_assoc.
    destruct (step a s) as [[[u|e] s']| |] eqn:E1; [| |reflexivity|reflexivity].
    + cbn [bind]. apply IH.
      * intros; apply H; auto; right; assumption.
      * intros; eapply Hi; eauto; right; assumption.
      * eapply Hi; eauto. left; reflexivity.
    + reflexivity.
Qed.

Lemma map_items_map {A B : Type} (f : A -> val) (F : val -> M) (g : A -> res B) (h : B -> val)
    (l : list A) (r : env) :
  (forall a, In a l -> F (f a) r = let* b := g a in Ret (Val (h b), r)) ->
  map_items F (map f l) r = let* bs := map_res g l in Ret (Val (VSeq (map h bs)), r).
Proof.
  induction l as [|a l IH]; intros H; cbn [map_items map map_res].
  - reflexivity.
  - unfold bindm at 1. rewrite H by (left; reflexivity). rewrite !bind_assoc.
    destruct (g a) as [b| |]; [|reflexivity|reflexivity]. cbn [bind].
    unfold bindm. rewrite IH by (intros; apply H; right; assumption). rewrite !bind_assoc.
    destruct (map_res g l); reflexivity.
Qed.

(** * Small facts *)

Lemma join_refl t : join t t = Some t.
Proof. destruct t; reflexivity. Qed.
Lemma map_res_num t l : map_res (num t) (map (VInt t) l) = Ret l.
Proof.
  induction l as [|x l IH]; [reflexivity|]. cbn [map map_res]. unfold num at 1.
  rewrite join_refl. replace (ity_eqb t t) with true by (destruct t; reflexivity).
  cbn [bind]. rewrite IH. reflexivity.
Qed.
Lemma length_count n lo : List.length (count n lo) = n.
Proof. revert lo; induction n; intros; cbn; auto. Qed.
Lemma idx_map {A B} (f : A -> B) l i : idx (map f l) i = let* x := idx l i in Ret (f x).
Proof.
  unfold idx. rewrite nth_error_map. destruct (nth_error l (N.to_nat i)); reflexivity.
Qed.
Lemma len_map {A B} (f : A -> B) l : len (map f l) = len l.
Proof. unfold len. rewrite map_length. reflexivity. Qed.
Lemma set_nth_map {A B} (f : A -> B) l n x : set_nth (map f l) n (f x) = map f (set_nth l n x).
Proof. revert n; induction l as [|y l IH]; intros [|n]; cbn; f_equal; auto. Qed.
Lemma upd_map {A B} (f : A -> B) l i x :
  upd (map f l) i (f x) = let* l' := upd l i x in Ret (map f l').
Proof.
  unfold upd. rewrite len_map. destruct (i <? len l); [|reflexivity].
  cbn [bind]. rewrite set_nth_map. reflexivity.
Qed.

(** Iterators. *)
Lemma enumerate_count {A} (g : N -> A) n lo :
  combine (count (List.length (map g (count n lo))) lo) (map g (count n lo)) =
  map (fun i => (i, g i)) (count n lo).
Proof.
  rewrite map_length, length_count. revert lo.
  induction n as [|n IH]; intros lo; [reflexivity|]. cbn [count map combine]. f_equal. apply IH.
Qed.
Lemma map_count_nth_gen {A} (l : list A) d lo :
  l = map (fun i => nth (N.to_nat (i - lo)) l d) (count (List.length l) lo).
Proof.
  revert lo. induction l as [|x l IH]; intros lo; [reflexivity|].
  cbn [List.length count map]. replace (lo - lo) with 0 by lia. cbn [N.to_nat nth].
  f_equal. rewrite (IH (N.succ lo)) at 1. clear IH.
  assert (H : forall n lo', lo < lo' ->
    map (fun i => nth (N.to_nat (i - N.succ lo)) l d) (count n lo') =
    map (fun i => match N.to_nat (i - lo) with O => x | S m => nth m l d end) (count n lo')).
  { intros n. induction n as [|n IH]; intros lo' Hlo; [reflexivity|]. cbn [count map]. f_equal.
    - replace (N.to_nat (lo' - lo)) with (S (N.to_nat (lo' - N.succ lo))) by lia. reflexivity.
    - apply IH. lia. }
  apply H. lia.
Qed.
Lemma map_count_nth {A} (l : list A) d n : List.length l = n ->
  l = map (fun i => nth (N.to_nat i) l d) (count n 0).
Proof.
  intros <-. rewrite (map_count_nth_gen l d 0) at 1. apply map_ext. intros a. f_equal. lia.
Qed.
Lemma items_nth t l n : List.length l = n ->
  map (VInt t) l = map (fun i => VInt t (nth (N.to_nat i) l 0)) (count n 0).
Proof. intros H. rewrite (map_count_nth l 0 n H) at 1. apply map_map. Qed.
Lemma count_items n lo : count n lo = map (fun i => i) (count n lo).
Proof. symmetry. apply map_id. Qed.
Lemma combine_count {A B} (g : N -> A) (h : N -> B) n lo :
  combine (map g (count n lo)) (map h (count n lo)) = map (fun i => (g i, h i)) (count n lo).
Proof.
  revert lo. induction n as [|n IH]; intros lo; [reflexivity|]. cbn [count map combine].
  f_equal. apply IH.
Qed.

(** Loop results keep what each turn keeps. *)
Lemma for_n_keeps {St} (P : St -> Prop) (step : N -> St -> res St) n : forall i s s',
  (forall i s s', P s -> step i s = Ret s' -> P s') ->
  P s -> for_n n i step s = Ret s' -> P s'.
Proof.
  induction n as [|n IH]; intros i s s' H Hs E; cbn [for_n] in E.
  - injection E as <-. exact Hs.
  - destruct (step i s) as [s1| |] eqn:E1; try discriminate. exact (IH _ _ _ H (H _ _ _ Hs E1) E).
Qed.
Lemma upd_length {A} (l : list A) i x l' : upd l i x = Ret l' -> List.length l' = List.length l.
Proof.
  unfold upd. destruct (i <? len l); [|discriminate]. injection 1 as <-. apply set_nth_length.
Qed.

Ltac inv_binds H :=
  repeat match type of H with
  | bind ?m _ = _ => let X := fresh "X" in destruct m eqn:X; try discriminate H; cbn [bind] in H
  end.

(** Shift amounts in range. *)
Lemma usize_bits_32 T : 32 <= usize_bits T.
Proof. unfold usize_bits. destruct (width T); lia. Qed.
Lemma amount_ok T t s : s < bits T t -> amount T t s = Ret s.
Proof.
  intros H. unfold amount, below. destruct (N.compare_spec s (bits T t)); [lia|reflexivity|lia].
Qed.

(** * Tactics *)

(** Evaluating closed parts of the interpreter; the program's own operations
    ([Rust]) are left alone. *)
Ltac evt t := eval lazy beta iota zeta delta [
  bind eval bindm lift ret set_place deref into all matches scoped binding first_arm once
  do_call copy_in copy_out get put get_steps put_steps get_step find lookup assoc_set extend
  root steps String.eqb Ascii.eqb Bool.eqb String.append fst snd each each_res join_lists
  pair_up drop join ity_eqb bits below fit add mul sub shl amount arith bin not_ cast from
  wrapping_add min_ num coerce array repeat_val items size range index_of parent String.prefix
  Ascii.ascii_dec type_name builtin elem_size empty deref_name frame finals params ret_ty body
  N.compare Pos.compare Pos.compare_cont run_fn
  ] in t.
(** The same, when the program's lists are known element by element. *)
Ltac evt_lists t := eval lazy beta iota zeta delta [
  bind eval bindm lift ret set_place deref into all matches scoped binding first_arm once
  do_call copy_in copy_out get put get_steps put_steps get_step find lookup assoc_set extend
  root steps String.eqb Ascii.eqb Bool.eqb String.append fst snd each each_res join_lists
  pair_up drop join ity_eqb bits below fit add mul sub shl amount arith bin not_ cast from
  wrapping_add min_ num coerce array repeat_val items size range index_of parent String.prefix
  Ascii.ascii_dec type_name builtin elem_size empty deref_name frame finals params ret_ty body
  N.compare Pos.compare Pos.compare_cont run_fn
  idx upd slice slice_from slice_to with_slice copy_from_slice nth_error set_nth len List.length
  map app firstn skipn repeat N.ltb N.leb N.eqb andb N.of_nat Pos.of_succ_nat Pos.succ Pos.eqb
  N.sub Pos.sub_mask Pos.double_mask Pos.double_pred_mask Pos.succ_double_mask Pos.pred_double
  N.to_nat Pos.to_nat Pos.iter_op Init.Nat.add count N.succ combine
  ] in t.

(** Reducing the left-hand side until it waits for an operation of the program,
    a call or a loop. *)
(** One step of the interpreter on the left, inside the binds that wait for
    it; fails where an operation of the program is next. *)
Ltac micro t :=
  lazymatch t with
  | bind (Ret ?a) ?k =>
      let a' := evt a in
      let t' := eval lazy beta iota zeta in (k a') in
      change_no_check t with t'
  | @bind ?A ?B Panic _ => change_no_check t with (@Panic B)
  | @bind ?A ?B Diverge _ => change_no_check t with (@Diverge B)
  | bind ?m _ => micro m
  | bindm ?m ?k ?r =>
      change_no_check t with (bind (m r) (fun p : out * env =>
        let (o, r') := p in match o with Val v => k v r' | _ => Ret (o, r') end))
  | _ =>
      let t' := eval hnf in t in
      tryif constr_eq t t'
      then lazymatch t with
           | match ?x with _ => _ end => micro x
           | match ?x with _ => _ end _ => micro x
           end
      else change_no_check t with t'
  end.
(** What is next. *)
Ltac next t stuck :=
  lazymatch t with
  | bind ?m _ => next m stuck
  | match ?x with _ => _ end => next x stuck
  | match ?x with _ => _ end _ => next x stuck
  | Ret _ => idtac
  | Panic => idtac
  | Diverge => idtac
  | _ => stuck t
  end.
Ltac micros :=
  with_strategy opaque [bind bindm]
    (repeat lazymatch goal with |- ?t = _ => micro t end).

Ltac norm x := let x' := evt x in change_no_check x with x'.

(** Constant lengths. *)
Ltac lengths :=
  repeat match goal with
  | |- context [N.to_nat (Npos ?p)] =>
      let v := eval vm_compute in (N.to_nat (Npos p)) in change_no_check (N.to_nat (Npos p)) with v
  end.
(** What is known about the functions called; extended file by file. *)
Ltac call_rule := fail.

(** What is known about the constants; likewise. *)
Ltac const_rule := fail.

(** What is known about its operations; likewise. *)
Ltac prim_rule x := fail.

(** Operations of the program: they panic on both sides, or give a value. *)
Ltac on_stuck x :=
  lazymatch x with
  | run ?T ?n ?f ?vs => norm f; norm vs; lengths; try call_rule
  | for_items ?b ?l ?r => norm l; norm r
  | map_items ?b ?l ?r => norm l; norm r
  | while_m _ _ _ ?r => norm r
  | constant constants ?c =>
      norm c;
      first [ const_rule
            | let c' := evt c in
              let v := eval vm_compute in (constant constants c') in
              change_no_check (constant constants c') with v ]
  | amount ?T ?t ?s =>
      let t' := evt t in
      change (amount T t s) with (amount T t' s);
      rewrite (amount_ok T t' s)
        by (cbn [bits]; (lia || (pose proof (usize_bits_32 T); lia)))
  | alloc ?T (elem_size _ (TInt U8)) ?k =>
      change_no_check x with (alloc T 1 k)
  | alloc ?T (elem_size _ (TInt U32)) ?k =>
      change_no_check x with (alloc T 4 k)
  | alloc ?T (elem_size _ (TSeq _)) ?k =>
      change_no_check x with (alloc T (vec_size T) k)
  | context [N.to_nat (Npos _)] => lengths
  | _ =>
    lazymatch type of x with
    | res _ =>
      lazymatch goal with
      | H : x = Ret _ |- _ => rewrite H; cbv iota beta
      | _ =>
        first [ prim_rule x; cbv iota beta
              | let E := fresh "E" in destruct x eqn:E; [cbv iota beta|reflexivity|reflexivity] ]
      end
    | prod _ _ => destruct x
    | bool =>
      lazymatch goal with
      | H : x = _ |- _ => rewrite H; cbv iota beta
      | _ => let E := fresh "E" in destruct x eqn:E; cbv iota beta
      end
    end
  end.
Ltac right_step :=
  lazymatch goal with |- _ = ?t => let t' := eval cbn [bind negb] in t in change_no_check t with t' end.
(** What comes next. *)
Ltac peek := micros; lazymatch goal with |- ?t = _ => next t ltac:(fun x => idtac x) end.
(** Variables that were set and scopes that were left. *)
Ltac tidy :=
  repeat match goal with
  | |- context [drop ?a ?b] => norm (drop a b)
  | |- context [assoc_set ?f ?v ?l] => norm (assoc_set f v l)
  end.
Ltac go :=
  tidy; micros; lazymatch goal with |- ?t = _ => next t on_stuck end; right_step.
Ltac steps := repeat go; reflexivity.
(** The end: a value. *)
Ltac done :=
  lazymatch goal with |- ?t = _ => let t' := evt t in change_no_check t with t'; reflexivity end.

(** Starting a function: its variables, and its body. *)
Ltac enter :=
  intros;
  lazymatch goal with
  | |- run ?T (S ?n) ?f ?vs = _ =>
      change (run T (S n) f vs) with
        (let* d := find f functions in run_fn T (run T n) (constant constants) n d vs);
      let d := eval lazy beta iota delta [find lookup functions String.eqb Ascii.eqb Bool.eqb] in
                 (find f functions) in
      change (find f functions) with d;
      lazymatch d with Ret ?d =>
        lazymatch goal with |- bind (Ret d) ?k = _ => change (bind (Ret d) k) with (k d) end;
        cbv beta; unfold run_fn at 1;
        let p := eval lazy beta iota delta [params d] in (params d) in
        let e := eval lazy beta iota delta [body d] in (body d) in
        let t := eval lazy beta iota delta [ret_ty d] in (ret_ty d) in
        change (params d) with p; change (body d) with e; change (ret_ty d) with t;
        let fr := evt (frame p vs) in change (frame p vs) with fr;
        cbv beta
      end
  end.

(** Replacing the loop that is next by a loop of the model. *)
Ltac loop_count f emb step I n lo s :=
  lazymatch goal with |- context [for_items ?B ?l ?r] =>
    let H := fresh "L" in
    assert (H : for_items B l r = let* s' := for_n n lo step s in Ret (Val VUnit, emb s'));
    [ replace l with (map f (count n lo)); [apply (for_items_count f B emb step I n lo s)|]
    | rewrite H; clear H ]
  end.
Ltac loop_each f emb step I l' s :=
  lazymatch goal with |- context [for_items ?B ?l ?r] =>
    let H := fresh "L" in
    assert (H : for_items B l r = let* s' := for_each l' step s in Ret (Val VUnit, emb s'));
    [ replace l with (map f l'); [apply (for_items_each f B emb step I l' s)|]
    | rewrite H; clear H ]
  end.
Ltac loop_while emb c step s :=
  lazymatch goal with |- context [while_m ?f ?C ?B ?r] =>
    let H := fresh "L" in
    assert (H : while_m f C B r = let* s' := while_loop f c step s in Ret (Val VUnit, emb s'));
    [ apply (while_m_while C B emb c step f s) | rewrite H; clear H ]
  end.
