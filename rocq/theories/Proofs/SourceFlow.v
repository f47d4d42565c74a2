(** A check of a function's text for what its record (Source/Observe.v) can depend
    on, and the proof that the check is right for all programs.

    Every variable has one label: [Pub] is data that two runs have in common, [Sec]
    data that only has the same form in both (the same length, the same integer
    types), the others give a label to every part of a structured value.  The check
    accepts a function if no secret reaches a branch, an index, a loop bound, a
    division or an addition that can overflow. *)
From Coq Require Import NArith List String Bool Lia.
From Verif Require Import Rust.
From Verif.Source Require Import Syntax Interp Observe.
Import ListNotations.
Local Open Scope string_scope.
Local Open Scope N_scope.

Inductive astep : Type := AField (f : string) | AIndex | ASlice.
Inductive lab : Type :=
| Pub
| Sec
| Rec (s : string) (fs : list (string * lab))
| Tup (ls : list lab)
| Seq (l : lab)
| Con (cs : list (string * list lab))          (* the constructors it can have *)
| Ref (x : string) (p : list astep).
Definition aenv : Type := list (string * lab).

(** * Two values with the same label *)

Inductive shape : val -> val -> Prop :=
| sh_unit : shape VUnit VUnit
| sh_bool b b' : shape (VBool b) (VBool b')
| sh_int t a b : shape (VInt t a) (VInt t b)
| sh_nums t l l' : List.length l = List.length l' -> shape (VNums t l) (VNums t l')
| sh_seq l l' : Forall2 shape l l' -> shape (VSeq l) (VSeq l').

Inductive smatch : astep -> step -> Prop :=
| sm_field f : smatch (AField f) (SField f)
| sm_index i : smatch AIndex (SIndex i)
| sm_slice a b : smatch ASlice (SSlice a b).

Inductive rel : lab -> val -> val -> Prop :=
| r_pub v : shape v v -> rel Pub v v
| r_sec v v' : shape v v' -> rel Sec v v'
| r_rec s G xs xs' : renv G xs xs' -> rel (Rec s G) (VStruct s xs) (VStruct s xs')
| r_tup ls vs vs' : rels ls vs vs' -> rel (Tup ls) (VTup vs) (VTup vs')
| r_seq l vs vs' : Forall2 (rel l) vs vs' -> rel (Seq l) (VSeq vs) (VSeq vs')
| r_con c cs ls vs vs' : lookup c cs = Some ls -> rels ls vs vs' -> rel (Con cs) (VCon c vs) (VCon c vs')
| r_ref x p q : Forall2 smatch p q -> rel (Ref x p) (VRef (mkPath x q)) (VRef (mkPath x q))
with renv : aenv -> env -> env -> Prop :=
| e_nil : renv [] [] []
| e_cons x l G v v' r r' : rel l v v' -> renv G r r' -> renv ((x, l) :: G) ((x, v) :: r) ((x, v') :: r')
with rels : list lab -> list val -> list val -> Prop :=
| s_nil : rels [] [] []
| s_cons l ls v v' vs vs' : rel l v v' -> rels ls vs vs' -> rels (l :: ls) (v :: vs) (v' :: vs').

Ltac inv H := inversion H; subst; clear H.

Definition rres {A : Type} (R : A -> A -> Prop) (x x' : res A) : Prop :=
  match x, x' with
  | Ret a, Ret b => R a b
  | Panic, Panic | Diverge, Diverge => True
  | _, _ => False
  end.
Lemma rres_bind {A B} (R : A -> A -> Prop) (S : B -> B -> Prop) x x' k k' :
  rres R x x' -> (forall a b, R a b -> rres S (k a) (k' b)) -> rres S (bind x k) (bind x' k').
Proof. intros H1 H2. destruct x, x'; cbn in *; try contradiction; auto. Qed.
Lemma rres_eq {A} (x : res A) : rres Logic.eq x x.
Proof. destruct x; cbn; auto. Qed.
Lemma rres_pub (x : res val) : (forall y, x = Ret y -> shape y y) -> rres (rel Pub) x x.
Proof. intros H. destruct x; cbn; auto. constructor. auto. Qed.

Definition data (l : lab) : Prop := l = Pub \/ l = Sec.
Lemma rel_shape l v v' : data l -> rel l v v' -> shape v v'.
Proof. intros [D|D] H; subst l; inv H; assumption. Qed.

(** * Operations *)

Definition lub (a b : lab) : option lab :=
  match a, b with
  | Pub, Pub => Some Pub
  | Pub, Sec | Sec, Pub | Sec, Sec => Some Sec
  | _, _ => None
  end.
Definition bin_lab (op : binop) (a b : lab) : option lab :=
  match op with
  | And | Or | Xor => lub a b
  | Shl | Shr => match a, b with Pub, Pub => Some Pub | Sec, Pub => Some Sec | _, _ => None end
  | Eq | Ne | Lt | Le | Gt | Ge => lub a b
  | AndAlso | OrElse => None
  | _ => match a, b with Pub, Pub => Some Pub | _, _ => None end
  end.

Ltac dres :=
  repeat match goal with
  | H : bind ?x _ = Ret _ |- _ => destruct x eqn:?; cbn [bind] in H; try discriminate
  | H : Ret _ = Ret _ |- _ => injection H as H; subst
  end.

Lemma bin_plain T op v w y : bin T op v w = Ret y -> shape y y.
Proof.
  destruct v as [| |t a| | | | | | |]; try discriminate. destruct w as [| |u b| | | | | | |]; try discriminate.
  cbn [bin]. intros H.
  destruct op; try (destruct (join t u); [|discriminate]; cbn [arith] in H); dres; try discriminate; try constructor.
Qed.

Lemma bin_rel T op a b l v v' w w' : bin_lab op a b = Some l -> rel a v v' -> rel b w w' ->
  rres (rel l) (bin T op v w) (bin T op v' w') /\ divide_event op v w = divide_event op v' w'.
Proof.
  intros B H1 H2.
  assert (P : a = Pub -> b = Pub -> l = Pub ->
    rres (rel l) (bin T op v w) (bin T op v' w') /\ divide_event op v w = divide_event op v' w').
  { intros -> -> ->. inv H1. inv H2. split; [|reflexivity]. apply rres_pub. intros y E. eapply bin_plain, E. }
  assert (Q : match op with And | Or | Xor | Eq | Ne | Lt | Le | Gt | Ge => True | _ => False end -> l = Sec -> shape v v' -> shape w w' ->
    rres (rel l) (bin T op v w) (bin T op v' w') /\ divide_event op v w = divide_event op v' w').
  { clear. intros O -> S1 S2. split.
    - inv S1; cbn [bin]; try exact I; try (destruct w, w'; exact I).
      inv S2; cbn [bin]; try exact I.
      destruct op; try contradiction; (destruct (join t t0); [|exact I]); cbn; constructor; constructor.
    - destruct op; try contradiction; reflexivity. }
  assert (S : (op = Shl \/ op = Shr) -> a = Sec -> b = Pub -> l = Sec ->
    rres (rel l) (bin T op v w) (bin T op v' w') /\ divide_event op v w = divide_event op v' w').
  { intros O -> -> ->. inv H1. inv H2. split; [|destruct O; subst op; reflexivity].
    match goal with S1 : shape v v' |- _ => inv S1 end; cbn [bin]; try exact I.
    destruct w' as [| |u c| | | | | | |]; try exact I.
    destruct O as [O|O]; subst op; (apply (rres_bind Logic.eq); [apply rres_eq|]); intros s s' <-;
      [destruct t|]; cbn; try exact I; constructor; constructor. }
  destruct op, a, b; cbn in B; try discriminate; injection B as <-;
    try (apply P; reflexivity); try (apply S; auto; fail);
    (apply Q; [exact I|reflexivity|eapply rel_shape; [|eassumption]; unfold data; tauto
      |eapply rel_shape; [|eassumption]; unfold data; tauto]).
Qed.

Definition un_lab (a : lab) : option lab :=
  match a with Pub => Some Pub | Sec => Some Sec | _ => None end.
Lemma un_rel (f : val -> res val) a l v v' : un_lab a = Some l -> rel a v v' ->
  (forall x x', shape x x' -> rres shape (f x) (f x')) -> rres (rel l) (f v) (f v').
Proof.
  intros U H F. destruct a; try discriminate; cbn in U; injection U as <-; inv H.
  - apply rres_pub. intros y E. match goal with H : shape _ _ |- _ => apply F in H end. rewrite E in *. assumption.
  - match goal with H : shape _ _ |- _ => apply F in H; rename H into K end.
    destruct (f v), (f v'); cbn in *; auto. constructor. exact K.
Qed.
Lemma not_shape T x x' : shape x x' -> rres shape (not_ T x) (not_ T x').
Proof. intros H. inv H; cbn; auto; [constructor|]. destruct t; cbn; auto; constructor. Qed.
Lemma cast_shape T t x x' : shape x x' -> rres shape (cast T t x) (cast T t x').
Proof. intros H. inv H; cbn; auto. destruct t; cbn; auto; constructor. Qed.
Lemma from_shape t x x' : shape x x' -> rres shape (from t x) (from t x').
Proof. intros H. inv H; destruct t; cbn; auto; destruct t0; cbn; auto; constructor. Qed.

Lemma num_shape t x x' : shape x x' -> rres (fun _ _ => True) (num t x) (num t x').
Proof.
  intros H. inv H; cbn; auto. destruct (join t t0) as [j|]; [|exact I]. destruct (ity_eqb j t); exact I.
Qed.
Lemma nums_shape t l l' : Forall2 shape l l' ->
  rres (fun a b => List.length a = List.length b) (map_res (num t) l) (map_res (num t) l').
Proof.
  induction 1 as [|x x' l l' Hx _ IH]; cbn [map_res]; [reflexivity|].
  eapply rres_bind; [apply num_shape, Hx|]. intros a b _. eapply rres_bind; [exact IH|].
  intros c d E. cbn. congruence.
Qed.
Lemma coerce_shape t x x' : shape x x' -> rres shape (coerce t x) (coerce t x').
Proof.
  intros H.
  assert (K : rres shape (Ret x) (Ret x')) by exact H.
  destruct t as [t|[t|t|]|]; cbn [coerce]; try (inv H; exact K).
  - inv H; try exact K. eapply rres_bind; [apply num_shape; constructor|]. intros a' b' _. constructor.
  - inv H; try exact K.
    + destruct (join t t0) as [j|]; [|exact I]. destruct (ity_eqb j t); [|exact I]. constructor. assumption.
    + eapply rres_bind; [apply nums_shape; eassumption|]. intros c d E. constructor. exact E.
Qed.
Definition coerce_lab (l : lab) : option lab :=
  match l with Tup _ | Seq _ => None | _ => Some l end.
Lemma coerce_rel t a l v v' : coerce_lab a = Some l -> rel a v v' -> rres (rel l) (coerce t v) (coerce t v').
Proof.
  intros C H. destruct a; cbn in C; try discriminate; injection C as <-.
  - apply (un_rel (coerce t) Pub); [reflexivity|exact H|]. apply coerce_shape.
  - apply (un_rel (coerce t) Sec); [reflexivity|exact H|]. apply coerce_shape.
  - inv H. destruct t as [t|[t|t|]|]; cbn; econstructor; eassumption.
  - inv H. destruct t as [t|[t|t|]|]; cbn; econstructor; eassumption.
  - inv H. destruct t as [t|[t|t|]|]; cbn; econstructor; eassumption.
Qed.

Lemma wrapping_shape T v v' w w' : shape v v' -> shape w w' ->
  rres shape (wrapping_add T v w) (wrapping_add T v' w').
Proof.
  intros H1 H2. inv H1; cbn [wrapping_add]; auto; try exact I.
  inv H2; destruct t; cbn [wrapping_add]; try exact I;
    try (destruct t0; cbn; try exact I; constructor).
Qed.
Lemma two_rel (f : val -> val -> res val) a b l v v' w w' : lub a b = Some l -> rel a v v' -> rel b w w' ->
  (forall x x' y y', shape x x' -> shape y y' -> rres shape (f x y) (f x' y')) ->
  rres (rel l) (f v w) (f v' w').
Proof.
  intros U H1 H2 F.
  assert (D : data a /\ data b) by (unfold data; destruct a, b; try discriminate; tauto).
  pose proof (F _ _ _ _ (rel_shape _ _ _ (proj1 D) H1) (rel_shape _ _ _ (proj2 D) H2)) as K.
  destruct a, b; cbn in U; try discriminate; injection U as <-;
    try (destruct (f v w), (f v' w'); cbn in *; auto; constructor; exact K).
  inv H1. inv H2. apply rres_pub. intros y E. rewrite E in K. exact K.
Qed.
Lemma min_plain v w y : min_ v w = Ret y -> shape y y.
Proof.
  destruct v as [| |t a| | | | | | |]; try discriminate; destruct w as [| |u b| | | | | | |]; try discriminate.
  cbn. destruct (join t u); [|discriminate]. intros E. injection E as <-. constructor.
Qed.
Lemma range_plain v w i y : range v w i = Ret y -> shape y y.
Proof.
  destruct v as [| |t a| | | | | | |]; try discriminate; destruct w as [| |u b| | | | | | |]; try discriminate.
  cbn [range]. destruct (join t u); [|discriminate]. intros E. injection E as <-. constructor. reflexivity.
Qed.
Lemma repeat_shape v v' n : shape v v' -> shape (repeat_val v n) (repeat_val v' n).
Proof.
  assert (K : shape v v' -> shape (VSeq (repeat v (N.to_nat n))) (VSeq (repeat v' (N.to_nat n)))).
  { intros S. constructor. induction (N.to_nat n); cbn; constructor; assumption. }
  intros H. specialize (K H). inv H; cbn [repeat_val]; try exact K. constructor. rewrite !repeat_length. reflexivity.
Qed.
Lemma forall2_len {A B} (R : A -> B -> Prop) l l' : Forall2 R l l' -> List.length l = List.length l'.
Proof. induction 1; cbn; congruence. Qed.
Lemma size_shape v v' : shape v v' -> size v = size v'.
Proof.
  intros H. inv H; cbn [size]; try reflexivity; unfold len; f_equal; f_equal; [assumption|].
  eapply forall2_len; eassumption.
Qed.

Definition elem (l : lab) : option lab :=
  match l with Pub => Some Pub | Sec => Some Sec | Seq l' => Some l' | _ => None end.
Lemma items_rel a l v v' : elem a = Some l -> rel a v v' -> rres (Forall2 (rel l)) (items v) (items v').
Proof.
  intros E H. destruct a; cbn in E; try discriminate; injection E as <-; inv H.
  - match goal with H : shape _ _ |- _ => inv H end; cbn; auto.
    + induction l; cbn; constructor; [constructor; constructor|apply IHl; reflexivity].
    + match goal with H : Forall2 shape _ _ |- _ => revert H end. clear.
      induction l as [|x l IH]; intros H; constructor; inv H; [constructor; assumption|auto].
  - match goal with H : shape _ _ |- _ => inv H end; cbn; auto.
    + revert l' H. induction l as [|x l IH]; intros [|y l'] E; cbn in *; try discriminate; constructor;
        [constructor; constructor|apply IH; congruence].
    + match goal with H : Forall2 shape _ _ |- _ => induction H end; constructor; [constructor; assumption|assumption].
  - cbn. assumption.
Qed.

(** * Places *)

Definition alab (l : lab) (s : astep) : option lab :=
  match l, s with
  | Pub, AIndex | Pub, ASlice => Some Pub
  | Sec, AIndex | Sec, ASlice => Some Sec
  | Rec _ fs, AField f => lookup f fs
  | _, _ => None
  end.
Fixpoint alabs (l : lab) (p : list astep) : option lab :=
  match p with
  | [] => Some l
  | s :: p' => match alab l s with Some l' => alabs l' p' | None => None end
  end.
Definition walk (G : aenv) (x : string) (p : list astep) : option lab :=
  match lookup x G with Some l => alabs l p | None => None end.

Lemma lookup_rel G r r' x l : renv G r r' -> lookup x G = Some l ->
  exists v v', lookup x r = Some v /\ lookup x r' = Some v' /\ rel l v v'.
Proof.
  induction 1 as [|y m G v v' r r' Hv _ IH]; cbn; [discriminate|].
  destruct (String.eqb x y); [|exact IH]. intros E. injection E as <-. exists v, v'. auto.
Qed.
Lemma find_rel G r r' x l : renv G r r' -> lookup x G = Some l -> rres (rel l) (find x r) (find x r').
Proof.
  intros H E. destruct (lookup_rel _ _ _ _ _ H E) as [v [v' [E1 [E2 K]]]]. unfold find. rewrite E1, E2. exact K.
Qed.
Lemma set_rel G r r' x l v v' : renv G r r' -> lookup x G = Some l -> rel l v v' ->
  renv G (assoc_set x v r) (assoc_set x v' r').
Proof.
  intros H E K. revert E. induction H as [|y m G w w' r r' Hw Hr IH]; cbn; [discriminate|].
  destruct (String.eqb x y) eqn:Exy; intros E.
  - injection E as <-. constructor; assumption.
  - constructor; auto.
Qed.

Lemma nth_len {A} (l l' : list A) i : List.length l = List.length l' -> rres (fun _ _ => True) (idx l i) (idx l' i).
Proof.
  intros E. unfold idx.
  destruct (nth_error l (N.to_nat i)) eqn:E1, (nth_error l' (N.to_nat i)) eqn:E2; cbn; auto;
    [apply nth_error_None in E2; assert (nth_error l (N.to_nat i) <> None) as Q by congruence
    |apply nth_error_None in E1; assert (nth_error l' (N.to_nat i) <> None) as Q by congruence];
    apply nth_error_Some in Q; lia.
Qed.
Lemma idx_rel {A} (R : A -> A -> Prop) l l' i : Forall2 R l l' -> rres R (idx l i) (idx l' i).
Proof.
  unfold idx. intros H. revert l l' H. induction (N.to_nat i) as [|n IH]; intros l l' H; inv H; cbn; auto.
Qed.
Lemma upd_rel {A} (R : A -> A -> Prop) l l' i x x' : Forall2 R l l' -> R x x' -> rres (Forall2 R) (upd l i x) (upd l' i x').
Proof.
  intros H Hx. unfold upd, len. rewrite <- (forall2_len _ _ _ H). destruct (_ <? _); [|exact I]. cbn.
  revert l l' H. induction (N.to_nat i) as [|n IH]; intros l l' H; inv H; cbn; constructor; auto.
Qed.
Lemma upd_len {A} (l l' : list A) i x x' : List.length l = List.length l' ->
  rres (fun a b => List.length a = List.length b) (upd l i x) (upd l' i x').
Proof.
  intros E. unfold upd, len. rewrite E. destruct (_ <? _); [|exact I]. cbn.
  revert l' E. generalize (N.to_nat i). induction l as [|y l IH]; intros n [|y' l'] E; cbn in *; try discriminate; auto.
  destruct n; cbn; [assumption|]. f_equal. apply IH. congruence.
Qed.
Lemma skip_rel {A} (R : A -> A -> Prop) l l' n : Forall2 R l l' -> Forall2 R (skipn n l) (skipn n l').
Proof. intros H. revert n. induction H; intros [|n]; cbn; auto. Qed.
Lemma first_rel {A} (R : A -> A -> Prop) l l' n : Forall2 R l l' -> Forall2 R (firstn n l) (firstn n l').
Proof. intros H. revert n. induction H; intros [|n]; cbn; auto. Qed.
Lemma slice_rel {A} (R : A -> A -> Prop) l l' a b : Forall2 R l l' -> rres (Forall2 R) (slice l a b) (slice l' a b).
Proof.
  intros H. unfold slice, len. rewrite <- (forall2_len _ _ _ H). destruct (_ && _); [|exact I].
  apply first_rel, skip_rel, H.
Qed.
Lemma slice_len {A} (l l' : list A) a b : List.length l = List.length l' ->
  rres (fun a b => List.length a = List.length b) (slice l a b) (slice l' a b).
Proof.
  intros H. unfold slice, len. rewrite H. destruct (_ && _); [|exact I]. cbn.
  rewrite !firstn_length, !skipn_length, H. reflexivity.
Qed.

Lemma get_step_shape s x x' : shape x x' -> rres shape (get_step x s) (get_step x' s).
Proof.
  intros H. inv H; destruct s; cbn [get_step]; try exact I.
  - eapply rres_bind; [apply nth_len; eassumption|]. intros c d _. constructor.
  - eapply rres_bind; [apply slice_len; eassumption|]. intros c d E. constructor. exact E.
  - apply idx_rel. assumption.
  - eapply rres_bind; [apply slice_rel; eassumption|]. intros c d E. constructor. exact E.
Qed.
Lemma get_step_rel l l2 a s v v' : alab l a = Some l2 -> smatch a s -> rel l v v' ->
  rres (rel l2) (get_step v s) (get_step v' s).
Proof.
  intros A M H. destruct l; cbn in A; try discriminate.
  - assert (l2 = Pub) by (destruct a; congruence). subst l2.
    apply (un_rel (fun v => get_step v s) Pub); [reflexivity|exact H|]. apply get_step_shape.
  - assert (l2 = Sec) by (destruct a; congruence). subst l2.
    apply (un_rel (fun v => get_step v s) Sec); [reflexivity|exact H|]. apply get_step_shape.
  - destruct a; try discriminate. inv M. inv H. cbn [get_step]. eapply find_rel; eassumption.
Qed.
Lemma get_steps_rel p q : Forall2 smatch p q -> forall l l2 v v', alabs l p = Some l2 -> rel l v v' ->
  rres (rel l2) (get_steps v q) (get_steps v' q).
Proof.
  induction 1 as [|a s p q Ha _ IH]; intros l l2 v v' E H; cbn in *.
  - injection E as <-. exact H.
  - destruct (alab l a) as [l1|] eqn:E1; [|discriminate].
    eapply rres_bind; [eapply get_step_rel; eassumption|]. intros w w' Hw. eapply IH; eassumption.
Qed.
Lemma get_rel G r r' x p q l : renv G r r' -> walk G x p = Some l -> Forall2 smatch p q ->
  rres (rel l) (get r (mkPath x q)) (get r' (mkPath x q)).
Proof.
  intros H W M. unfold walk in W. destruct (lookup x G) as [l0|] eqn:E; [|discriminate].
  unfold get. cbn [root Interp.steps]. eapply rres_bind; [eapply find_rel; eassumption|].
  intros v v' K. eapply get_steps_rel; eassumption.
Qed.

Lemma put_steps_shape q : forall x x' w w', shape x x' -> shape w w' ->
  rres shape (put_steps x q w) (put_steps x' q w').
Proof.
  induction q as [|s q IH]; intros x x' w w' H Hw; cbn [put_steps]; [exact Hw|].
  inv H; try (destruct s; exact I).
  - destruct s; try exact I.
    + destruct q; [|exact I]. inv Hw; try exact I. destruct (join t t0); [|exact I].
      eapply rres_bind; [apply upd_len; eassumption|]. intros c d E. constructor. exact E.
    + destruct q; [|exact I]. inv Hw; try exact I. destruct (join t t0); [|exact I].
      cbn. constructor. rewrite !app_length, !firstn_length, !skipn_length. congruence.
  - destruct s; try exact I.
    eapply rres_bind; [apply (idx_rel shape); eassumption|]. intros c d E.
    eapply rres_bind; [apply IH; eassumption|]. intros c' d' E'.
    eapply rres_bind; [apply (upd_rel shape); eassumption|]. intros c2 d2 E2. constructor. exact E2.
Qed.
Lemma alabs_data l l2 p : data l -> alabs l p = Some l2 -> l2 = l.
Proof.
  intros D. induction p as [|a p IH]; cbn; intros E; [congruence|].
  destruct D as [D|D]; subst l; destruct a; cbn in E; try discriminate; auto.
Qed.
Lemma put_steps_rel p q : Forall2 smatch p q -> forall l l2 v v' w w', alabs l p = Some l2 ->
  rel l v v' -> rel l2 w w' -> rres (rel l) (put_steps v q w) (put_steps v' q w').
Proof.
  induction 1 as [|a s p q Ha Hp IH]; intros l l2 v v' w w' E H Hw.
  - cbn in E. injection E as <-. exact Hw.
  - assert (D : data l -> rres (rel l) (put_steps v (s :: q) w) (put_steps v' (s :: q) w')).
    { intros D. pose proof (alabs_data _ _ _ D E) as E2. subst l2.
      pose proof (put_steps_shape (s :: q) _ _ _ _ (rel_shape _ _ _ D H) (rel_shape _ _ _ D Hw)) as K.
      destruct D as [D|D]; subst l.
      - inv H. inv Hw. apply rres_pub. intros y Ey. rewrite Ey in K. exact K.
      - destruct (put_steps v (s :: q) w), (put_steps v' (s :: q) w'); try contradiction; try exact I.
        constructor. exact K. }
    destruct l; try (apply D; unfold data; tauto); cbn in E; try discriminate.
    destruct a; try discriminate. inv Ha. inv H. cbn [put_steps].
    destruct (lookup f fs) as [l1|] eqn:E1; [|discriminate].
    eapply rres_bind; [eapply find_rel; eassumption|]. intros c d Hc.
    eapply rres_bind; [eapply IH; eassumption|]. intros c' d' Hc'. cbn. constructor. eapply set_rel; eassumption.
Qed.
Lemma put_rel G r r' x p q l w w' : renv G r r' -> walk G x p = Some l -> Forall2 smatch p q -> rel l w w' ->
  rres (renv G) (put r (mkPath x q) w) (put r' (mkPath x q) w').
Proof.
  intros H W M Hw. unfold walk in W. destruct (lookup x G) as [l0|] eqn:E; [|discriminate].
  unfold put. cbn [root Interp.steps]. eapply rres_bind; [eapply find_rel; eassumption|].
  intros v v' K. eapply rres_bind; [eapply put_steps_rel; eassumption|]. intros c d Hc.
  cbn. eapply set_rel; eassumption.
Qed.

(** One label is as good as another: what is public can be used as a secret. *)
Fixpoint sub (a b : lab) {struct a} : bool :=
  match a, b with
  | Pub, Pub | Pub, Sec | Sec, Sec => true
  | Con a, Con b =>
      (fix go (cs : list (string * list lab)) : bool :=
         match cs with
         | [] => true
         | (c, ls) :: cs =>
             match lookup c b with
             | Some ms =>
                 (fix all2 (ls ms : list lab) : bool :=
                    match ls, ms with
                    | [], [] => true
                    | l :: ls, m :: ms => sub l m && all2 ls ms
                    | _, _ => false
                    end) ls ms
             | None => false
             end && go cs
         end) a
  | Rec s fs, Rec s' fs' => String.eqb s s' &&
      (fix go (fs fs' : aenv) : bool :=
         match fs, fs' with
         | [], [] => true
         | (x, l) :: fs, (y, m) :: fs' => String.eqb x y && sub l m && go fs fs'
         | _, _ => false
         end) fs fs'
  | _, _ => false
  end.
Lemma sub_rel : forall a b v v', sub a b = true -> rel a v v' -> rel b v v'.
Proof.
  fix IH 1. intros a b v v' S H. destruct a, b; cbn in S; try discriminate; try exact H.
  - inv H. constructor. assumption.
  - apply andb_prop in S as [S1 S2]. apply String.eqb_eq in S1. subst s0. inv H. constructor.
    match goal with H : renv _ _ _ |- _ => revert H end. revert fs0 S2. revert xs xs'. revert fs.
    fix IHf 1. intros [|[x l] fs] xs xs' fs0 S H; destruct fs0 as [|[y m] fs0]; try discriminate.
    + exact H.
    + apply andb_prop in S as [S S3]. apply andb_prop in S as [S1 S2]. apply String.eqb_eq in S1. subst y.
      inversion H; subst. constructor; [eapply IH; eassumption|]. eapply IHf; eassumption.
  - inversion H as [| | | | |c cs1 ls vs vs' F K|]; subst.
    enough (X : exists ms, lookup c cs0 = Some ms /\ rels ms vs vs') by (destruct X as [ms [X1 X2]]; econstructor; eassumption).
    revert F K S. clear H. revert vs vs' ls. revert cs. fix IHc 1. intros [|[d ks] cs] vs vs' ls F K S; [discriminate|].
    apply andb_prop in S as [S1 S2]. cbn [lookup] in F. destruct (String.eqb c d) eqn:Ecd; [|exact (IHc cs vs vs' ls F K S2)].
    clear IHc. injection F as F. subst ls. apply String.eqb_eq in Ecd. subst d.
    destruct (lookup c cs0) as [ms|]; [|discriminate]. exists ms. split; [reflexivity|].
    clear S2 cs. revert ks ms vs vs' S1 K. fix IHl 1. intros [|l ls] [|m ms] vs vs' S K; try discriminate; inversion K; subst.
    + constructor.
    + apply andb_prop in S as [S1 S2]. constructor; [eapply IH; eassumption|eapply IHl; eassumption].
Qed.

(** * Patterns *)

Fixpoint amatch (p : pat) (l : lab) {struct p} : option aenv :=
  match p, l with
  | PVar x, _ => Some [(x, l)]
  | PWild, _ => Some []
  | PLit _, Pub => Some []
  | PCon c ps, Con cs =>
      match lookup c cs with
      | Some ls =>
          (fix go (ps : list pat) (ls : list lab) : option aenv :=
             match ps, ls with
             | [], [] => Some []
             | p :: ps', l :: ls' =>
                 match amatch p l, go ps' ls' with
                 | Some a, Some b => Some (join_lists a b)
                 | _, _ => None
                 end
             | _, _ => None
             end) ps ls
      | None => None
      end
  | PTup ps, Tup ls =>
      (fix go (ps : list pat) (ls : list lab) : option aenv :=
         match ps, ls with
         | [], [] => Some []
         | p :: ps', l :: ls' =>
             match amatch p l, go ps' ls' with
             | Some a, Some b => Some (join_lists a b)
             | _, _ => None
             end
         | _, _ => None
         end) ps ls
  | _, _ => None
  end.

Lemma join_rel A n n' G r r' : renv A n n' -> renv G r r' ->
  renv (join_lists A G) (join_lists n r) (join_lists n' r').
Proof. induction 1; cbn; intros; [assumption|constructor; auto]. Qed.
Lemma drop_rel A n n' G r r' : renv A n n' -> renv (join_lists A G) r r' -> renv G (drop n r) (drop n' r').
Proof.
  intros H. revert r r'. induction H as [|x l A v v' n n' _ _ IH]; cbn; intros r r' K.
  - destruct r, r'; exact K.
  - inv K. apply IH. assumption.
Qed.
Definition both (A : aenv) (n n' : option env) : Prop :=
  match n, n' with Some r, Some r' => renv A r r' | None, None => True | _, _ => False end.
Lemma match_rel : forall p l A v v', amatch p l = Some A -> rel l v v' -> both A (matches p v) (matches p v').
Proof.
  fix IH 1. intros p l A v v' E H. destruct p as [x| |n|ps|c ps].
  - cbn in E. injection E as <-. cbn. constructor; [exact H|constructor].
  - cbn in E. injection E as <-. cbn. constructor.
  - destruct l; try discriminate. injection E as <-. inv H. cbn [matches]. destruct v'; cbn; try exact I.
    destruct (n =? n0); cbn; [constructor|exact I].
  - destruct l as [| | |ls| | |]; try discriminate. inversion H as [| | |ls' vs vs' R| | |]; subst. cbn [matches] in *. clear H.
    revert ls A vs vs' E R. cbn [amatch]. revert ps. fix IHp 1. intros [|p ps] [|l ls] A vs vs' E R; try discriminate.
    + injection E as <-. inversion R; subst. constructor.
    + inversion R; subst.
      destruct (amatch p l) as [a|] eqn:Ea; [|discriminate].
      match type of E with match ?g with _ => _ end = _ => destruct g as [b|] eqn:Eb; [|discriminate] end.
      injection E as <-.
      match goal with H1 : rel l ?w ?w', H2 : rels ls ?ws ?ws' |- _ =>
        pose proof (IH p l a w w' Ea H1) as M; pose proof (IHp ps ls b ws ws' Eb H2) as N end.
      unfold both in M, N.
      destruct (matches p v), (matches p v'); try contradiction;
        match type of N with match ?g with _ => _ end => destruct g end;
        match type of N with match ?g with _ => _ end => destruct g | _ => idtac end;
        try contradiction; cbn; try exact I. apply join_rel; assumption.
  - destruct l as [| | | | |cs|]; try discriminate. inversion H as [| | | | |d cs' ls vs vs' F R|]; subst. clear H.
    cbn [amatch] in E. cbn [matches]. destruct (String.eqb c d) eqn:Ecd; [|exact I].
    apply String.eqb_eq in Ecd. subst d. rewrite F in E. clear F cs.
    revert ls A vs vs' E R. revert ps. fix IHp 1. intros [|p ps] [|l ls] A vs vs' E R; try discriminate.
    + injection E as <-. inversion R; subst. constructor.
    + inversion R; subst.
      destruct (amatch p l) as [a|] eqn:Ea; [|discriminate].
      match type of E with match ?g with _ => _ end = _ => destruct g as [b|] eqn:Eb; [|discriminate] end.
      injection E as <-.
      match goal with H1 : rel l ?w ?w', H2 : rels ls ?ws ?ws' |- _ =>
        pose proof (IH p l a w w' Ea H1) as M; pose proof (IHp ps ls b ws ws' Eb H2) as N end.
      unfold both in M, N.
      destruct (matches p v), (matches p v'); try contradiction;
        match type of N with match ?g with _ => _ end => destruct g end;
        match type of N with match ?g with _ => _ end => destruct g | _ => idtac end;
        try contradiction; cbn; try exact I. apply join_rel; assumption.
Qed.

(** * Runs *)

(** The kinds of events that may differ. *)
Inductive kind : Type := KAt | KBranch | KDivide.
Definition differ (allow : kind -> bool) (e e' : event) : Prop :=
  match e, e' with
  | At i, At j => allow KAt = true /\ i <> j
  | Branch b, Branch c => allow KBranch = true /\ b <> c
  | Divide a n, Divide b m => allow KDivide = true /\ a <> b /\ n = m
  | _, _ => False
  end.
(** Two records that are equal up to an event that may differ. *)
Definition parts (allow : kind -> bool) (t t' : list event) : Prop :=
  exists c e e' s s', t = (c ++ e :: s)%list /\ t' = (c ++ e' :: s')%list /\ differ allow e e'.
Definition near {A : Type} (allow : kind -> bool) (P : A -> A -> Prop) (x x' : list event * res A) : Prop :=
  (fst x = fst x' /\ rres P (snd x) (snd x')) \/ parts allow (fst x) (fst x').

Lemma parts_after allow c t t' : parts allow t t' -> parts allow (c ++ t) (c ++ t').
Proof.
  intros (c0 & e & e' & s & s' & -> & -> & D). exists (c ++ c0)%list, e, e', s, s'.
  rewrite <- !app_assoc. auto.
Qed.
Lemma parts_before allow t t' s s' : parts allow t t' -> parts allow (t ++ s) (t' ++ s').
Proof.
  intros (c0 & e & e' & s0 & s0' & -> & -> & D). exists c0, e, e', (s0 ++ s)%list, (s0' ++ s')%list.
  rewrite <- !app_assoc. auto.
Qed.
Lemma parts_first allow e e' s s' : differ allow e e' -> parts allow (e :: s) (e' :: s').
Proof. intros D. exists [], e, e', s, s'. auto. Qed.
Lemma near_then {A B} allow (P : A -> A -> Prop) (Q : B -> B -> Prop) x x' k k' :
  near allow P x x' -> (forall a b, P a b -> rres Q (k a) (k' b)) ->
  near allow Q (fst x, bind (snd x) k) (fst x', bind (snd x') k').
Proof.
  intros [[E H]|D] K; [left|right; exact D]. split; [exact E|]. eapply rres_bind; eassumption.
Qed.

Section Flow.

Variable allow : kind -> bool.
(** The label of what the function returns. *)
Variable R : lab.

Definition outs (G : aenv) (l : lab) (p p' : out * env) : Prop :=
  match fst p, fst p' with
  | Val v, Val v' => rel l v v'
  | Return v, Return v' => rel R v v'
  | Continue, Continue => True
  | _, _ => False
  end /\ renv G (snd p) (snd p').
Definition mj (G : aenv) (l : lab) (m m' : M) : Prop :=
  forall r r', renv G r r' -> rres (outs G l) (m r) (m' r').
Definition jdg (G : aenv) (l : lab) (m m' : L) : Prop :=
  forall r r', renv G r r' -> near allow (outs G l) (m r) (m' r').

Lemma quiet_j G l m m' : mj G l m m' -> jdg G l (quiet m) (quiet m').
Proof. intros H r r' E. left. split; [reflexivity|]. apply H, E. Qed.
Lemma noting_j G l t t' m m' : t = t' -> jdg G l m m' -> jdg G l (noting t m) (noting t' m').
Proof.
  intros <- H r r' E. pose proof (H r r' E) as K. unfold noting.
  destruct (m r), (m' r'). unfold near in *. cbn [fst snd] in *.
  destruct K as [[-> K]|K]; [left; auto|right; apply parts_after, K].
Qed.
(** Events that may differ: the rest matters only if they do not. *)
Lemma noting_first G l e e' m m' : (differ allow e e') \/ (e = e' /\ jdg G l m m') ->
  jdg G l (noting [e] m) (noting [e'] m').
Proof.
  intros [D|[<- H]]; [|apply noting_j; [reflexivity|exact H]]. intros r r' E. right. unfold noting.
  destruct (m r), (m' r'). cbn [fst app]. apply parts_first, D.
Qed.
Lemma stuck_j G l : mj G l (fun _ => Diverge) (fun _ => Diverge).
Proof. intros r r' E. exact I. Qed.
Lemma lift_j G l x x' : rres (rel l) x x' -> mj G l (lift x) (lift x').
Proof. intros H r r' E. unfold lift. eapply rres_bind; [exact H|]. intros a b K. split; assumption. Qed.
Lemma ret_j G l v v' : rel l v v' -> mj G l (ret v) (ret v').
Proof. intros H r r' E. split; assumption. Qed.
Lemma bindm_j G l l2 m m' k k' : mj G l m m' -> (forall v v', rel l v v' -> mj G l2 (k v) (k' v')) ->
  mj G l2 (bindm m k) (bindm m' k').
Proof.
  intros H1 H2 r r' E. unfold bindm. eapply rres_bind; [apply H1, E|]. intros [o s] [o' s'] [K1 K2].
  cbn [fst snd] in *. destruct o, o'; try contradiction; [apply H2; assumption| |]; split; assumption.
Qed.
Lemma bindl_j G l l2 m m' k k' : jdg G l m m' -> (forall v v', rel l v v' -> jdg G l2 (k v) (k' v')) ->
  jdg G l2 (bindl m k) (bindl m' k').
Proof.
  intros H1 H2 r r' E. pose proof (H1 r r' E) as K. unfold bindl.
  destruct (m r) as [t x], (m' r') as [t' x']. unfold near in K. cbn [fst snd] in K.
  destruct K as [[<- E2]|D].
  - destruct x as [[o s]| |], x' as [[o' s']| |]; try contradiction; try (left; split; [reflexivity|exact I]).
    destruct E2 as [K1 K2]. cbn [fst snd] in *.
    destruct o, o'; try contradiction; try (left; split; [reflexivity|split; assumption]).
    pose proof (H2 _ _ K1 _ _ K2) as F. destruct (k v s), (k' v0 s'). unfold near in *. cbn [fst snd] in *.
    destruct F as [[-> F]|F]; [left; auto|right; apply parts_after, F].
  - right.
    assert (X : exists s, fst (match x with Ret (Val v, r') => let (t'0, x0) := k v r' in ((t ++ t'0)%list, x0) | _ => (t, x) end)
      = (t ++ s)%list).
    { destruct x as [[[] ?]| |]; try (exists []; cbn [fst]; rewrite app_nil_r; reflexivity).
      destruct (k v e) as [t0 ?]. exists t0. reflexivity. }
    assert (X' : exists s, fst (match x' with Ret (Val v, r') => let (t'0, x0) := k' v r' in ((t' ++ t'0)%list, x0) | _ => (t', x') end)
      = (t' ++ s)%list).
    { destruct x' as [[[] ?]| |]; try (exists []; cbn [fst]; rewrite app_nil_r; reflexivity).
      destruct (k' v e) as [t0 ?]. exists t0. reflexivity. }
    destruct X as [s1 X], X' as [s2 X']. rewrite X, X'. apply parts_before, D.
Qed.

Inductive jdgs (G : aenv) : list lab -> list L -> list L -> Prop :=
| j_nil : jdgs G [] [] []
| j_cons l ls m m' ms ms' : jdg G l m m' -> jdgs G ls ms ms' -> jdgs G (l :: ls) (m :: ms) (m' :: ms').
Lemma alll_j G ls ms ms' : jdgs G ls ms ms' -> forall l k k',
  (forall vs vs', rels ls vs vs' -> jdg G l (k vs) (k' vs')) -> jdg G l (alll ms k) (alll ms' k').
Proof.
  induction 1 as [|a ls m m' ms ms' Hm _ IH]; intros l k k' Hk; cbn [alll].
  - apply Hk. constructor.
  - eapply bindl_j; [exact Hm|]. intros v v' Hv. apply IH. intros vs vs' Hvs. apply Hk. constructor; assumption.
Qed.
Lemma scopedl_j G A l n n' m m' : renv A n n' -> jdg (join_lists A G) l m m' -> jdg G l (scopedl n m) (scopedl n' m').
Proof.
  intros HA H r r' E. pose proof (H _ _ (join_rel _ _ _ _ _ _ HA E)) as K. unfold scopedl.
  destruct (m _) as [t x], (m' _) as [t' x']. apply (near_then _ _ (outs G l) (t, x) (t', x') _ _ K).
  intros [o s] [o' s'] [K1 K2]. cbn [fst snd] in *. split; [exact K1|].
  cbn [snd]. eapply drop_rel; eassumption.
Qed.
Lemma bindingl_j G A l l2 p v v' m m' : amatch p l = Some A -> rel l v v' -> jdg (join_lists A G) l2 m m' ->
  jdg G l2 (bindingl p v m) (bindingl p v' m').
Proof.
  intros HA Hv H r r' E. pose proof (match_rel _ _ _ _ _ HA Hv) as M. unfold bindingl, both in *.
  destruct (matches p v) as [n|], (matches p v') as [n'|]; try contradiction; [|left; split; [reflexivity|exact I]].
  exact (scopedl_j _ _ _ _ _ _ _ M H r r' E).
Qed.
Lemma oncel_j G l m m' : jdg G l m m' -> jdg G Pub (oncel m) (oncel m').
Proof.
  intros H r r' E. pose proof (H r r' E) as K. unfold oncel.
  destruct (m r) as [t x], (m' r') as [t' x']. apply (near_then _ _ (outs G Pub) (t, x) (t', x') _ _ K).
  intros [o s] [o' s'] [K1 K2]. cbn [fst snd] in *.
  destruct o, o'; try contradiction; cbn; split; auto; constructor; constructor.
Qed.
Lemma for_itemsl_j G l el B xs xs' : (forall v v', rel el v v' -> jdg G l (B v) (B v')) ->
  Forall2 (rel el) xs xs' -> jdg G Pub (for_itemsl B xs) (for_itemsl B xs').
Proof.
  intros H. induction 1 as [|x x' xs xs' Hx _ IH]; cbn [for_itemsl].
  - apply quiet_j, ret_j. constructor. constructor.
  - eapply bindl_j; [eapply oncel_j, H, Hx|]. intros _ _ _. exact IH.
Qed.

Lemma whilel_j G l k c b c' b' : jdg G Pub c c' -> jdg G l b b' -> jdg G Pub (whilel k c b) (whilel k c' b').
Proof.
  intros Hc Hb. induction k as [|k IH]; cbn [whilel]; (eapply bindl_j; [exact Hc|]);
    intros v v' Hv; inversion Hv; subst; (apply noting_j; [reflexivity|]);
    destruct v' as [|[]| | | | | | | |]; try (apply quiet_j, stuck_j);
    try (apply quiet_j, ret_j; constructor; constructor).
  eapply bindl_j; [eapply oncel_j, Hb|]. intros _ _ _. exact IH.
Qed.
Lemma map_itemsl_j G l el B xs xs' : data l -> (forall v v', rel el v v' -> jdg G l (B v) (B v')) ->
  Forall2 (rel el) xs xs' -> jdg G l (map_itemsl B xs) (map_itemsl B xs').
Proof.
  intros D H. induction 1 as [|x x' xs xs' Hx _ IH]; cbn [map_itemsl].
  - apply quiet_j, ret_j. destruct D as [->| ->]; constructor; constructor; constructor.
  - eapply bindl_j; [eapply H, Hx|]. intros y y' Hy. eapply bindl_j; [exact IH|]. intros ys ys' Hys.
    apply quiet_j. pose proof (rel_shape _ _ _ D Hy) as S1. pose proof (rel_shape _ _ _ D Hys) as S2.
    destruct D as [->| ->].
    + inv Hy. inv Hys. inv S2; try apply stuck_j. apply ret_j. constructor. constructor. constructor; assumption.
    + inv S2; try apply stuck_j. apply ret_j. constructor. constructor. constructor; assumption.
Qed.

(** ** References *)

Definition deref_lab (G : aenv) (l : lab) : option lab :=
  match l with Ref x p => walk G x p | _ => Some l end.
Lemma deref_j G a l v v' : deref_lab G a = Some l -> rel a v v' -> mj G l (deref v) (deref v').
Proof.
  intros D H r r' E. destruct a; cbn in D; try (injection D as <-); try (inv H; split; cbn; assumption || (econstructor; eassumption); fail).
  - inv H. match goal with S : shape _ _ |- _ => pose proof S as K; inv S end; split; cbn; auto; constructor; assumption.
  - inv H. match goal with S : shape _ _ |- _ => pose proof S as K; inv S end; split; cbn; auto; constructor; assumption.
  - inv H. cbn [deref]. eapply rres_bind; [eapply get_rel; eassumption|]. intros x0 x1 K. split; assumption.
Qed.

Definition into_lab (G : aenv) (place : bool) (l : lab) (s : astep) : option lab :=
  match l with
  | Ref x p => if place then Some (Ref x (p ++ [s])) else walk G x (p ++ [s])
  | _ => alab l s
  end.
Lemma join_app {A} (a b : list A) : join_lists a b = (a ++ b)%list.
Proof. induction a; cbn; congruence. Qed.
Lemma into_j G place a l s q v v' : into_lab G place a s = Some l -> smatch s q -> rel a v v' ->
  mj G l (into place v q) (into place v' q).
Proof.
  intros D S H r r' E.
  assert (K : alab a s = Some l -> (forall p, v <> VRef p) -> (forall p, v' <> VRef p) ->
    rres (outs G l) (into place v q r) (into place v' q r')).
  { intros A N N'. unfold into.
    replace (match v with VRef p => _ | _ => _ end) with (let* x := get_step v q in Ret (Val x, r))
      by (destruct v; try reflexivity; exfalso; eapply N; reflexivity).
    replace (match v' with VRef p => _ | _ => _ end) with (let* x := get_step v' q in Ret (Val x, r'))
      by (destruct v'; try reflexivity; exfalso; eapply N'; reflexivity).
    eapply rres_bind; [eapply get_step_rel; eassumption|]. intros x x' Hx. split; assumption. }
  destruct a; cbn [into_lab] in D;
    try (apply K; [exact D| |]; intros p0 Ep; subst; inv H;
         match goal with S : shape _ _ |- _ => inv S end; fail);
    try (apply K; [exact D| |]; intros p0 Ep; subst; inv H; fail).
  inv H. cbn [into]. unfold extend. cbn [root Interp.steps].
  assert (F : Forall2 smatch (p ++ [s]) (join_lists q0 [q])).
  { rewrite join_app. apply Forall2_app; [assumption|]. constructor; [assumption|constructor]. }
  destruct place.
  - injection D as <-. split; [constructor; exact F|exact E].
  - eapply rres_bind; [eapply get_rel; eassumption|]. intros x0 x1 Hx. split; assumption.
Qed.
Lemma set_place_j G x p q l w w' : walk G x p = Some l -> Forall2 smatch p q -> rel l w w' ->
  mj G Pub (set_place (mkPath x q) w) (set_place (mkPath x q) w').
Proof.
  intros W F H r r' E. unfold set_place. eapply rres_bind; [eapply put_rel; eassumption|].
  intros s s' K. split; [constructor; constructor|exact K].
Qed.

(** ** Methods of std *)

Lemma data_rel l v v' : data l -> (l = Pub -> v = v') -> shape v v' -> rel l v v'.
Proof. intros [->| ->] E S; [rewrite <- (E eq_refl) in *|]; constructor; assumption. Qed.
Lemma rel_pub v v' : rel Pub v v' -> v = v'.
Proof. intros H. inv H. reflexivity. Qed.

Definition vector (lx w : lab) : bool :=
  match lx, w with Sec, Sec | Sec, Pub | Pub, Pub => true | _, _ => false end.
Definition builtin_lab (G : aenv) (m : string) (la lx : lab) (ls : list lab) : option lab :=
  match ls with
  | [] =>
      if String.eqb m "len" then match lx with Pub | Sec => Some Pub | _ => None end
      else if existsb (String.eqb m) ["iter"; "clone"; "to_vec"; "into_iter"; "collect"] then un_lab lx
      else if String.eqb m "rev" then un_lab lx
      else if String.eqb m "flatten" then un_lab lx
      else if String.eqb m "unwrap_or_default" then
        match lx with
        | Con [("Some", [l]); ("None", [])] => match l with Sec | Pub => Some l | _ => None end
        | _ => None
        end
      else if String.eqb m "clear" then
        match la with Ref _ _ => if vector lx Pub then Some Pub else None | _ => None end
      else if String.eqb m "iter_mut" then
        match la, lx with
        | Ref x p, Pub | Ref x p, Sec => Some (Seq (Ref x (p ++ [AIndex])))
        | _, _ => None
        end
      else if String.eqb m "enumerate" then
        match elem lx with Some l => Some (Seq (Tup [Pub; l])) | None => None end
      else None
  | [w] =>
      if String.eqb m "wrapping_add" then lub lx w
      else if String.eqb m "zip" then
        match elem lx, elem w with Some l, Some l' => Some (Seq (Tup [l; l'])) | _, _ => None end
      else if String.eqb m "copy_from_slice" || String.eqb m "clone_from_slice" then
        match la, lx, w with
        | Ref x p, Sec, Sec | Ref x p, Sec, Pub | Ref x p, Pub, Pub => Some Pub
        | _, _, _ => None
        end
      else if String.eqb m "push" then
        match la with Ref _ _ => if vector lx w then Some Pub else None | _ => None end
      else if String.eqb m "append" then
        match la, w with
        | Ref _ _, Ref y q =>
            match walk G y q with Some lw => if vector lx lw then Some Pub else None | None => None end
        | Ref _ _, _ => if vector lx w then Some Pub else None
        | _, _ => None
        end
      else if String.eqb m "split_off" then
        match la, w with Ref _ _, Pub => un_lab lx | _, _ => None end
      else if String.eqb m "chunks" || String.eqb m "chunks_exact" then
        match w with Pub => un_lab lx | _ => None end
      else None
  | _ => None
  end.

Definition rev_val (v : val) : res val :=
  match v with VNums t l => Ret (VNums t (rev l)) | VSeq l => Ret (VSeq (rev l)) | _ => Diverge end.
Lemma rev_shape x x' : shape x x' -> rres shape (rev_val x) (rev_val x').
Proof.
  intros H. inv H; cbn; auto; constructor; [rewrite !rev_length; assumption|].
  match goal with H : Forall2 _ _ _ |- _ => induction H; cbn; [constructor|] end.
  apply Forall2_app; [assumption|]. repeat constructor. assumption.
Qed.
Lemma items_shape v v' : shape v v' -> rres (Forall2 shape) (items v) (items v').
Proof.
  intros H. assert (K : rel Sec v v') by (constructor; exact H). apply (items_rel Sec Sec) in K; [|reflexivity].
  destruct (items v), (items v'); cbn in *; auto. induction K as [|a b c d Hab K IH]; constructor; [inv Hab; assumption|exact IH].
Qed.
Definition flat_val (v : val) : res val :=
  let* l := items v in let* ls := map_res items l in Ret (VSeq (List.concat ls)).
Lemma flat_shape x x' : shape x x' -> rres shape (flat_val x) (flat_val x').
Proof.
  intros H. unfold flat_val. eapply rres_bind; [apply items_shape, H|]. intros a b K.
  eapply (rres_bind (Forall2 (Forall2 shape))).
  - induction K as [|y y' a b Ky K IH]; cbn; [constructor|].
    eapply rres_bind; [apply items_shape, Ky|]. intros c d Hc. eapply rres_bind; [exact IH|].
    intros e f He. constructor; assumption.
  - intros c d Q. constructor. induction Q; cbn; [constructor|]. apply Forall2_app; assumption.
Qed.
Definition chunks_val (exact : bool) (n v : val) : res val :=
  match v with
  | VNums t l =>
      let* k := index_of n in let* c := (if exact then chunks_exact l k else chunks l k) in
      Ret (VSeq (map (VNums t) c))
  | _ => Diverge
  end.
Lemma chunks_fuel_len (k : nat) : forall n (l l' : list N), List.length l = List.length l' ->
  Forall2 (fun a b => List.length a = List.length b) (chunks_fuel n k l) (chunks_fuel n k l').
Proof.
  induction n as [|n IH]; intros l l' E; destruct l, l'; try discriminate; try constructor.
  - rewrite !firstn_length, E. reflexivity.
  - apply IH. rewrite !skipn_length, E. reflexivity.
Qed.
Lemma chunks_shape b n x x' : shape x x' -> rres shape (chunks_val b n x) (chunks_val b n x').
Proof.
  intros H. inv H; cbn [chunks_val rres]; auto.
  eapply rres_bind; [apply rres_eq|]. intros k k' <-.
  assert (M : forall c c', Forall2 (fun a b : list N => List.length a = List.length b) c c' ->
    shape (VSeq (map (VNums t) c)) (VSeq (map (VNums t) c'))).
  { intros c c' F. constructor. induction F; cbn; constructor; [constructor|]; assumption. }
  pose proof (chunks_fuel_len (N.to_nat k) (List.length l') l l' H0) as F.
  unfold chunks_exact, chunks. destruct b; destruct (k =? 0); cbn [bind rres]; auto; apply M; rewrite H0; [|exact F].
  induction F as [|a b c c' E F IH]; cbn [filter]; [constructor|].
  unfold len at 1 3. rewrite E. destruct (_ =? k); [constructor|]; assumption.
Qed.

Lemma vector_data lx w : vector lx w = true -> data lx.
Proof. unfold data. destruct lx, w; try discriminate; auto. Qed.
Lemma vector_arg lx w : vector lx w = true -> data w /\ (lx = Pub -> w = Pub).
Proof. unfold data. destruct lx, w; try discriminate; auto; split; auto; discriminate. Qed.
Lemma map_count_refs x p q n : Forall2 smatch p q ->
  Forall2 (rel (Ref x (p ++ [AIndex])))
    (map (fun i => VRef (extend (mkPath x q) (SIndex i))) n) (map (fun i => VRef (extend (mkPath x q) (SIndex i))) n).
Proof.
  intros F. induction n as [|i n IH]; cbn [map]; constructor; [|exact IH].
  unfold extend. cbn [root Interp.steps]. constructor. rewrite join_app. apply Forall2_app; [exact F|].
  constructor; constructor.
Qed.
Lemma enumerate_rel l xs xs' : Forall2 (rel l) xs xs' -> forall ns,
  Forall2 (rel (Tup [Pub; l])) (map (fun x => VTup [VInt Usize (fst x); snd x]) (combine ns xs))
    (map (fun x => VTup [VInt Usize (fst x); snd x]) (combine ns xs')).
Proof.
  induction 1 as [|x x' xs xs' Hx _ IH]; intros [|n ns]; cbn; constructor; [|apply IH].
  constructor. constructor; [constructor; constructor|]. constructor; [exact Hx|constructor].
Qed.
Lemma zip_rel l k xs xs' : Forall2 (rel l) xs xs' -> forall ys ys', Forall2 (rel k) ys ys' ->
  Forall2 (rel (Tup [l; k])) (map (fun x => VTup [fst x; snd x]) (combine xs ys))
    (map (fun x => VTup [fst x; snd x]) (combine xs' ys')).
Proof.
  induction 1 as [|x x' xs xs' Hx _ IH]; intros ys ys' H; [constructor|]. inv H; cbn; constructor.
  - constructor. constructor; [exact Hx|]. constructor; [assumption|constructor].
  - apply IH. assumption.
Qed.

Lemma push_j T G a p q lx w x x' y y' : walk G a p = Some lx -> Forall2 smatch p q -> vector lx w = true ->
  rel lx x x' -> rel w y y' ->
  mj G Pub (builtin T "push" (VRef (mkPath a q)) x [y]) (builtin T "push" (VRef (mkPath a q)) x' [y']).
Proof.
  intros W F V Hx Hy. pose proof (vector_data _ _ V) as D. destruct (vector_arg _ _ V) as [Dw P].
  pose proof (rel_shape _ _ _ D Hx) as S1. pose proof (rel_shape _ _ _ Dw Hy) as S2.
  assert (Q : lx = Pub -> x = x' /\ y = y').
  { intros E. specialize (P E). subst lx w. split; apply rel_pub; assumption. }
  cbn [builtin]. inv S1; try apply stuck_j.
  - inv S2; try apply stuck_j. destruct (join t t0) as [j|]; [|apply stuck_j].
    eapply set_place_j; [exact W|exact F|]. apply data_rel; [exact D| |].
    + intros E. destruct (Q E) as [Q1 Q2]. injection Q1 as ->. injection Q2 as ->. reflexivity.
    + constructor. rewrite !app_length. cbn. congruence.
  - eapply set_place_j; [exact W|exact F|]. apply data_rel; [exact D| |].
    + intros E. destruct (Q E) as [Q1 Q2]. injection Q1 as ->. subst y'. reflexivity.
    + constructor. apply Forall2_app; [assumption|]. constructor; [assumption|constructor].
Qed.
Lemma append_j T G a p q lx b p' q' lw x x' : walk G a p = Some lx -> Forall2 smatch p q ->
  walk G b p' = Some lw -> Forall2 smatch p' q' -> vector lx lw = true -> rel lx x x' ->
  mj G Pub (builtin T "append" (VRef (mkPath a q)) x [VRef (mkPath b q')])
    (builtin T "append" (VRef (mkPath a q)) x' [VRef (mkPath b q')]).
Proof.
  intros W F W' F' V Hx. pose proof (vector_data _ _ V) as D. destruct (vector_arg _ _ V) as [Dw P].
  cbn [builtin]. eapply (bindm_j G lw); [eapply (deref_j G (Ref b p')); [exact W'|constructor; exact F']|].
  intros y y' Hy.
  pose proof (rel_shape _ _ _ D Hx) as S1. pose proof (rel_shape _ _ _ Dw Hy) as S2.
  assert (Q : lx = Pub -> x = x' /\ y = y').
  { intros E. specialize (P E). subst lx lw. split; apply rel_pub; assumption. }
  inv S1; try apply stuck_j; (inv S2; try apply stuck_j).
  - destruct (join t t0) as [j|]; [|apply stuck_j]. eapply (bindm_j G Pub).
    + eapply set_place_j; [exact W|exact F|]. apply data_rel; [exact D| |].
      * intros E. destruct (Q E) as [Q1 Q2]. injection Q1 as ->. injection Q2 as ->. reflexivity.
      * constructor. rewrite !app_length. congruence.
    + intros _ _ _. eapply set_place_j; [exact W'|exact F'|]. apply data_rel; [exact Dw|reflexivity|].
      constructor. reflexivity.
  - eapply (bindm_j G Pub).
    + eapply set_place_j; [exact W|exact F|]. apply data_rel; [exact D| |].
      * intros E. destruct (Q E) as [Q1 Q2]. injection Q1 as ->. injection Q2 as ->. reflexivity.
      * constructor. apply Forall2_app; assumption.
    + intros _ _ _. eapply set_place_j; [exact W'|exact F'|]. apply data_rel; [exact Dw|reflexivity|].
      constructor. constructor.
Qed.
Lemma split_off_j T G a p q lx l x x' y : walk G a p = Some lx -> Forall2 smatch p q -> un_lab lx = Some l ->
  rel lx x x' ->
  mj G l (builtin T "split_off" (VRef (mkPath a q)) x [y]) (builtin T "split_off" (VRef (mkPath a q)) x' [y]).
Proof.
  intros W F U Hx. assert (D : data lx /\ l = lx) by (unfold data; destruct lx; try discriminate; injection U as <-; auto).
  destruct D as [D ->].
  assert (Q : lx = Pub -> x = x') by (intros ->; apply rel_pub, Hx).
  pose proof (rel_shape _ _ _ D Hx) as S1. cbn [builtin]. inv S1; try apply stuck_j.
  intros r r' E. eapply rres_bind; [apply rres_eq|]. intros k k' <-.
  assert (K : forall n : nat, rel lx (VNums t (firstn n l)) (VNums t (firstn n l')) /\
    rel lx (VNums t (skipn n l)) (VNums t (skipn n l'))).
  { intros n. split; (apply data_rel; [exact D|intros P; specialize (Q P); injection Q as ->; reflexivity|]);
      constructor; rewrite ?firstn_length, ?skipn_length; congruence. }
  unfold split_off, len. replace (List.length l') with (List.length l) by assumption.
  destruct (_ <=? _); [|exact I]. cbn [bind].
  destruct (K (N.to_nat k)) as [K1 K2].
  eapply rres_bind; [eapply put_rel; eassumption|]. intros s s' Hs. split; assumption.
Qed.

Lemma append_data_j T G a p q lx lw x x' y y' : walk G a p = Some lx -> Forall2 smatch p q ->
  vector lx lw = true -> rel lx x x' -> rel lw y y' ->
  mj G Pub (builtin T "append" (VRef (mkPath a q)) x [y]) (builtin T "append" (VRef (mkPath a q)) x' [y']).
Proof.
  intros W F V Hx Hy. pose proof (vector_data _ _ V) as D. destruct (vector_arg _ _ V) as [Dw P].
  pose proof (rel_shape _ _ _ D Hx) as S1. pose proof (rel_shape _ _ _ Dw Hy) as S2.
  cbn [builtin]. eapply (bindm_j G lw).
  { assert (K : deref y = ret y /\ deref y' = ret y') by (inv S2; split; reflexivity). destruct K as [-> ->].
    apply ret_j, Hy. }
  intros z z' Hz. pose proof (rel_shape _ _ _ Dw Hz) as S3.
  assert (Q' : lx = Pub -> x = x' /\ z = z').
  { intros E. specialize (P E). subst lx lw. split; apply rel_pub; assumption. }
  inv S1; try apply stuck_j; (inv S3; try apply stuck_j).
  - destruct (join t t0) as [j|]; [|apply stuck_j]. eapply (bindm_j G Pub).
    + eapply set_place_j; [exact W|exact F|]. apply data_rel; [exact D| |].
      * intros E. destruct (Q' E) as [Q1 Q2]. injection Q1 as ->. injection Q2 as ->. reflexivity.
      * constructor. rewrite !app_length. congruence.
    + intros _ _ _. inv S2; apply ret_j; constructor; constructor.
  - eapply (bindm_j G Pub).
    + eapply set_place_j; [exact W|exact F|]. apply data_rel; [exact D| |].
      * intros E. destruct (Q' E) as [Q1 Q2]. injection Q1 as ->. injection Q2 as ->. reflexivity.
      * constructor. apply Forall2_app; assumption.
    + intros _ _ _. inv S2; apply ret_j; constructor; constructor.
Qed.
Lemma builtin_j T G m la lx ls l v v' x x' vs vs' :
  builtin_lab G m la lx ls = Some l -> deref_lab G la = Some lx ->
  rel la v v' -> rel lx x x' -> rels ls vs vs' ->
  mj G l (builtin T m v x vs) (builtin T m v' x' vs').
Proof.
  intros B D Hv Hx Hs. unfold builtin_lab in B.
  destruct ls as [|w [|]]; [| |discriminate].
  - inv Hs.
    destruct (String.eqb m "len") eqn:E1; [apply String.eqb_eq in E1; subst m|clear E1].
    { assert (K : data lx /\ l = Pub) by (unfold data; destruct lx; try discriminate; injection B as <-; auto).
      destruct K as [K ->]. apply lift_j. rewrite (size_shape _ _ (rel_shape _ _ _ K Hx)).
      destruct (size x'); cbn; auto. constructor. constructor. }
    destruct (existsb (String.eqb m) ["iter"; "clone"; "to_vec"; "into_iter"; "collect"]) eqn:E1; [|clear E1].
    { assert (K : builtin T m v x [] = ret x /\ builtin T m v' x' [] = ret x').
      { apply existsb_exists in E1 as [m' [I1 E1]]. apply String.eqb_eq in E1. subst m'.
        repeat (destruct I1 as [I1|I1]; [subst m; split; reflexivity|]). destruct I1. }
      destruct K as [-> ->]. apply ret_j. destruct lx; try discriminate; injection B as <-; exact Hx. }
    destruct (String.eqb m "rev") eqn:E1; [apply String.eqb_eq in E1; subst m|clear E1].
    { assert (K : forall r y, builtin T "rev" r y [] = lift (rev_val y)) by (intros ? []; reflexivity).
      rewrite !K. apply lift_j. eapply (un_rel rev_val); try eassumption. apply rev_shape. }
    destruct (String.eqb m "flatten") eqn:E1; [apply String.eqb_eq in E1; subst m|clear E1].
    { apply lift_j. eapply (un_rel flat_val); try eassumption. apply flat_shape. }
    destruct (String.eqb m "unwrap_or_default") eqn:E1; [apply String.eqb_eq in E1; subst m|clear E1].
    { assert (K : exists k, data k /\ lx = Con [("Some", [k]); ("None", [])] /\ l = k).
      { revert B. unfold data. repeat match goal with |- context [match ?c with _ => _ end] => destruct c; try discriminate end;
          intros B; injection B as <-; eauto 6. }
      destruct K as [k [K1 [-> ->]]]. inv Hx.
      match goal with H : lookup ?c _ = Some _ |- _ => cbn [lookup] in H;
        destruct (String.eqb c "Some") eqn:E; [|destruct (String.eqb c "None") eqn:E0; [|discriminate]] end.
      - apply String.eqb_eq in E. subst. match goal with H : Some _ = Some _ |- _ => injection H as <- end.
        match goal with H : rels [k] _ _ |- _ => inv H end. match goal with H : rels [] _ _ |- _ => inv H end.
        apply ret_j. assumption.
      - apply String.eqb_eq in E0. subst. match goal with H : Some _ = Some _ |- _ => injection H as <- end.
        match goal with H : rels [] _ _ |- _ => inv H end. apply ret_j. apply data_rel; [exact K1|reflexivity|].
        constructor. reflexivity. }
    destruct (String.eqb m "clear") eqn:E1; [apply String.eqb_eq in E1; subst m|clear E1].
    { destruct la; try discriminate. destruct (vector lx Pub) eqn:V; [|discriminate]. injection B as <-.
      inv Hv. cbn [deref_lab] in D. cbn [builtin].
      pose proof (rel_shape _ _ _ (vector_data _ _ V) Hx) as S1.
      inv S1; try apply stuck_j.
      eapply set_place_j; [exact D|assumption|]. apply data_rel; [exact (vector_data _ _ V)|reflexivity|].
      constructor. reflexivity. }
    destruct (String.eqb m "iter_mut") eqn:E1; [apply String.eqb_eq in E1; subst m|clear E1].
    { destruct la; try discriminate. inv Hv.
      assert (K : data lx /\ l = Seq (Ref x0 (p ++ [AIndex])))
        by (unfold data; destruct lx; try discriminate; injection B as <-; auto).
      destruct K as [K ->]. cbn [builtin]. apply lift_j. rewrite (size_shape _ _ (rel_shape _ _ _ K Hx)).
      destruct (size x'); cbn [bind rres]; auto. constructor. apply map_count_refs. assumption. }
    destruct (String.eqb m "enumerate") eqn:E1; [apply String.eqb_eq in E1; subst m|discriminate].
    destruct (elem lx) as [k|] eqn:Ek; [|discriminate]. injection B as <-.
    cbn [builtin]. apply lift_j. eapply rres_bind; [eapply items_rel; eassumption|].
    intros a b K. cbn [rres]. constructor. rewrite (forall2_len _ _ _ K). apply enumerate_rel. exact K.
  - inv Hs. match goal with H : rels [] _ _ |- _ => inv H end.
    match goal with H : rel w ?a ?b |- _ => rename H into Hw; rename a into y; rename b into y' end.
    destruct (String.eqb m "wrapping_add") eqn:E1; [apply String.eqb_eq in E1; subst m|clear E1].
    { apply lift_j. eapply (two_rel (wrapping_add T)); try eassumption. apply wrapping_shape. }
    destruct (String.eqb m "zip") eqn:E1; [apply String.eqb_eq in E1; subst m|clear E1].
    { destruct (elem lx) as [k|] eqn:Ek; [|discriminate]. destruct (elem w) as [k'|] eqn:Ek'; [|discriminate].
      injection B as <-. cbn [builtin]. apply lift_j. eapply rres_bind; [exact (items_rel _ _ _ _ Ek Hx)|].
      intros a b K. eapply rres_bind; [exact (items_rel _ _ _ _ Ek' Hw)|]. intros a' b' K'.
      constructor. apply zip_rel; assumption. }
    destruct (String.eqb m "copy_from_slice" || String.eqb m "clone_from_slice") eqn:E1.
    2:{ clear E1.
      destruct (String.eqb m "push") eqn:E1; [apply String.eqb_eq in E1; subst m|clear E1].
      { destruct la; try discriminate. destruct (vector lx w) eqn:V; [|discriminate]. injection B as <-.
        inv Hv. eapply push_j; eassumption. }
      destruct (String.eqb m "append") eqn:E1; [apply String.eqb_eq in E1; subst m|clear E1].
      { destruct la as [| | | | | |a p]; try discriminate.
        destruct w as [| | | | | |b q]; try (destruct lx; discriminate).
        1, 2: match type of B with (if ?c then _ else _) = _ => destruct c eqn:V end; [|discriminate];
          injection B as <-; inv Hv; eapply append_data_j; eassumption.
        destruct (walk G b q) as [lw|] eqn:W; [|discriminate]. destruct (vector lx lw) eqn:V; [|discriminate].
        injection B as <-. inv Hv. inv Hw. eapply append_j; eassumption. }
      destruct (String.eqb m "split_off") eqn:E1; [apply String.eqb_eq in E1; subst m|clear E1].
      { destruct la as [| | | | | |a p]; try discriminate. destruct w; try discriminate. inv Hv. inv Hw.
        eapply split_off_j; eassumption. }
      destruct (String.eqb m "chunks") eqn:E1; [apply String.eqb_eq in E1; subst m|clear E1; cbn [orb] in B].
      { cbn [orb] in B. destruct w; try discriminate. inv Hw.
        assert (K : forall r y z, builtin T "chunks" r y [z] = lift (chunks_val false z y)) by (intros ? [] ?; reflexivity).
        rewrite !K. apply lift_j. eapply (un_rel (chunks_val false _)); try eassumption. apply chunks_shape. }
      destruct (String.eqb m "chunks_exact") eqn:E1; [apply String.eqb_eq in E1; subst m|discriminate].
      destruct w; try discriminate. inv Hw.
      assert (K : forall r y z, builtin T "chunks_exact" r y [z] = lift (chunks_val true z y)) by (intros ? [] ?; reflexivity).
      rewrite !K. apply lift_j. eapply (un_rel (chunks_val true _)); try eassumption. apply chunks_shape. }
    assert (K : builtin T m v x [y] = builtin T "copy_from_slice" v x [y] /\
      builtin T m v' x' [y'] = builtin T "copy_from_slice" v' x' [y']).
    { apply orb_prop in E1 as [E1|E1]; apply String.eqb_eq in E1; subst m; split; reflexivity. }
    destruct K as [-> ->]. clear E1. destruct la; try discriminate. inv Hv. cbn [deref_lab] in D. cbn [builtin].
    assert (Q : data lx /\ data w /\ sub w lx = true /\ l = Pub)
      by (unfold data; destruct lx, w; try discriminate; injection B as <-; cbn; auto).
    destruct Q as [Q1 [Q2 [Q3 ->]]].
    assert (J : forall t i i' u s s' j, x = VNums t i -> x' = VNums t i' -> y = VNums u s -> y' = VNums u s' ->
      join t u = Some j -> rres (fun a b => rel lx (VNums j a) (VNums j b)) (copy_from_slice i s) (copy_from_slice i' s')).
    { clear B. intros t i i' u s s' j -> -> -> -> J. pose proof (rel_shape _ _ _ Q1 Hx) as S1. pose proof (rel_shape _ _ _ Q2 Hw) as S2.
      inv S1. inv S2. unfold copy_from_slice, len.
      replace (List.length i) with (List.length i') by congruence.
      replace (List.length s) with (List.length s') by congruence.
      destruct (_ =? _); cbn [rres]; auto.
      destruct Q1 as [->| ->].
      - destruct w; try discriminate. inv Hw. constructor. constructor. reflexivity.
      - constructor. constructor. congruence. }
    pose proof (rel_shape _ _ _ Q1 Hx) as S1. pose proof (rel_shape _ _ _ Q2 Hw) as S2.
    inv S1; try (apply stuck_j); try (inv S2; apply stuck_j).
    inv S2; try apply stuck_j.
    destruct (join t t0) as [j|] eqn:Ej; [|apply stuck_j].
    intros r r' E. eapply rres_bind; [eapply J; reflexivity || exact Ej|]. intros a b K.
    eapply set_place_j; eassumption.
Qed.

(** ** Calls *)

Variable sigs : list (string * (list lab * lab)).
Inductive routs : list lab -> list (option val) -> list (option val) -> Prop :=
| o_nil : routs [] [] []
| o_none l ls ws ws' : routs ls ws ws' -> routs (l :: ls) (None :: ws) (None :: ws')
| o_some l ls w w' ws ws' : rel l w w' -> routs ls ws ws' -> routs (l :: ls) (Some w :: ws) (Some w' :: ws').
Definition csound (call : calleel) : Prop :=
  forall f ins o, lookup f sigs = Some (ins, o) -> forall vs vs', rels ins vs vs' ->
  near allow (fun a b => rel o (fst a) (fst b) /\ routs ins (snd a) (snd b)) (call f vs) (call f vs').

Definition arg_ok (G : aenv) (l i : lab) : bool :=
  match l with
  | Ref x p => match walk G x p with Some m => sub m i && sub i m | None => false end
  | _ => sub l i
  end.
Fixpoint args_ok (G : aenv) (ls ins : list lab) : bool :=
  match ls, ins with
  | [], [] => true
  | l :: ls', i :: ins' => arg_ok G l i && args_ok G ls' ins'
  | _, _ => false
  end.
Definition call_lab (G : aenv) (f : string) (ls : list lab) : option lab :=
  match lookup f sigs with
  | Some (ins, o) => if args_ok G ls ins then Some o else None
  | None => None
  end.

Lemma copy_in_rel G r r' : renv G r r' -> forall ls ins vs vs', args_ok G ls ins = true -> rels ls vs vs' ->
  rres (rels ins) (copy_in r vs) (copy_in r' vs').
Proof.
  intros E. unfold copy_in. induction ls as [|l ls IH]; intros [|i ins] vs vs' A H; try discriminate.
  - inv H. constructor.
  - cbn [args_ok] in A. apply andb_prop in A as [A1 A2]. inv H. cbn [each_res].
    eapply (rres_bind (rel i)).
    + match goal with H : rel l ?a ?b |- _ => rename H into Hv end.
      destruct l; cbn [arg_ok] in A1;
        try (pose proof (sub_rel _ _ _ _ A1 Hv) as K; inv Hv;
             try match goal with S : shape _ _ |- _ => inv S end; exact K).
      inv Hv. destruct (walk G x p) as [m|] eqn:W; [|discriminate]. apply andb_prop in A1 as [A1 _].
      match goal with F : Forall2 smatch _ _ |- _ => pose proof (get_rel _ _ _ _ _ _ _ E W F) as K end.
      destruct (get r _), (get r' _); try contradiction; try exact I. cbn in *. eapply sub_rel; eassumption.
    + intros a b K. eapply rres_bind; [eapply IH; eassumption|]. intros c d K2. constructor; assumption.
Qed.
Lemma copy_out_rel G : forall ls ins vs vs' ws ws' r r', args_ok G ls ins = true -> rels ls vs vs' ->
  routs ins ws ws' -> renv G r r' -> rres (renv G) (copy_out r vs ws) (copy_out r' vs' ws').
Proof.
  induction ls as [|l ls IH]; intros [|i ins] vs vs' ws ws' r r' A H O E; try discriminate.
  - inv H. inv O. exact E.
  - cbn [args_ok] in A. apply andb_prop in A as [A1 A2]. inv H.
    match goal with H : rel l ?a ?b |- _ => rename H into Hv; rename a into v; rename b into v' end.
    destruct l; try (assert (Q : (forall p, v <> VRef p) /\ (forall p, v' <> VRef p))
      by (split; intros p0 Ep; subst; inv Hv; match goal with S : shape _ _ |- _ => inv S end);
      destruct Q as [Q Q']; inv O; cbn [copy_out]; destruct v, v'; try (exfalso; eapply Q; reflexivity);
      try (exfalso; eapply Q'; reflexivity); eapply IH; eassumption);
    try (inv Hv; inv O; cbn [copy_out]; eapply IH; eassumption).
    inv Hv. cbn [arg_ok] in A1. destruct (walk G x p) as [m|] eqn:W; [|discriminate].
    apply andb_prop in A1 as [_ A1]. inv O; cbn [copy_out]; [eapply IH; eassumption|].
    eapply rres_bind; [eapply put_rel; try eassumption; eapply sub_rel; eassumption|].
    intros s s' K. eapply IH; eassumption.
Qed.
Lemma do_calll_j call G f ls l vs vs' : csound call -> call_lab G f ls = Some l -> rels ls vs vs' ->
  jdg G l (do_calll call f vs) (do_calll call f vs').
Proof.
  intros C K H r r' E. unfold call_lab in K. destruct (lookup f sigs) as [[ins o]|] eqn:F; [|discriminate].
  destruct (args_ok G ls ins) eqn:A; [|discriminate]. injection K as <-.
  pose proof (copy_in_rel _ _ _ E _ _ _ _ A H) as I1. unfold do_calll.
  destruct (copy_in r vs) as [xs| |], (copy_in r' vs') as [xs'| |]; try contradiction; try (left; split; [reflexivity|exact I]).
  cbn [rres] in I1. pose proof (C f _ _ F _ _ I1) as N.
  destruct (call f xs) as [t x], (call f xs') as [t' x']. unfold near in *. cbn [fst snd] in *.
  destruct N as [[<- E2]|D]; [left; split; [reflexivity|]|right; apply (parts_after _ [Call f]), D].
  eapply rres_bind; [exact E2|]. intros [y ws] [y' ws'] [Hy Hw]. cbn [fst snd] in *.
  eapply rres_bind; [eapply copy_out_rel; eassumption|]. intros s s' Hs. split; assumption.
Qed.

(** ** Expressions *)

Variable cst : string -> res val.

Definition plain (v : val) : bool :=
  match v with VInt _ _ | VNums _ _ => true | _ => false end.
Definition raise (e : expr) (l : lab) : lab :=
  match e, l with
  | ERepeat _ _, Pub | EArray _, Pub | EVecRepeat _ _, Pub | ECapacity _ _, Pub => Sec
  | _, _ => l
  end.
Fixpoint sequence {A : Type} (l : list (option A)) : option (list A) :=
  match l with
  | [] => Some []
  | Some x :: l' => match sequence l' with Some xs => Some (x :: xs) | None => None end
  | None :: _ => None
  end.
Fixpoint array_lab (ls : list lab) : option lab :=
  match ls with
  | [] => Some Pub
  | l :: ls' => match array_lab ls' with Some m => lub l m | None => None end
  end.
Definition none {A : Type} (x : option A) : bool := match x with None => true | Some _ => false end.
Lemma lookup_member {A} x (l : list (string * A)) y : lookup x l = Some y -> In (x, y) l.
Proof.
  induction l as [|[z w] l IH]; cbn; [discriminate|]. destruct (String.eqb x z) eqn:E; intros H.
  - apply String.eqb_eq in E. injection H as ->. left. congruence.
  - right. apply IH, H.
Qed.
Lemma lookup_append {A} x (l m : list (string * A)) :
  lookup x (l ++ m) = match lookup x l with Some y => Some y | None => lookup x m end.
Proof. induction l as [|[z w] l IH]; cbn; [reflexivity|]. destruct (String.eqb x z); [reflexivity|exact IH]. Qed.
Definition upper (a b : lab) : option lab :=
  if sub a b then Some b else if sub b a then Some a else
  match a, b with
  | Con cs, Con ds => if forallb (fun d => none (lookup (fst d) cs)) ds then Some (Con (cs ++ ds)) else None
  | _, _ => None
  end.
Fixpoint uppers (l : lab) (ls : list lab) : option lab :=
  match ls with
  | [] => Some l
  | m :: ls' => match upper l m with Some k => uppers k ls' | None => None end
  end.
Definition public (a : option lab) : bool := match a with Some Pub => true | _ => false end.
(** A secret is good enough, if it may be shown. *)
Definition public_or (b : bool) (a : option lab) : bool :=
  match a with Some Pub => true | Some Sec => b | _ => false end.

(** The label of the value, if the expression is accepted. *)
Fixpoint check (G : aenv) (place : bool) (e : expr) {struct e} : option lab :=
  match e with
  | EUnit | ELit _ | EContinue => Some Pub
  | EVar x =>
      match lookup x G with
      | Some (Ref y p) => Some (Ref y p)
      | Some l => Some (if place then Ref x [] else l)
      | None => None
      end
  | ECst c => match cst c with Ret v => if plain v then Some Pub else None | _ => None end
  | EBin op a b =>
      match check G false a, check G false b with
      | Some la, Some lb =>
          match op, la, lb with
          | AndAlso, Pub, Pub | OrElse, Pub, Pub => Some Pub
          | Div, Sec, Pub | Rem, Sec, Pub => if allow KDivide then Some Pub else None
          | _, _, _ => bin_lab op la lb
          end
      | _, _ => None
      end
  | ENot a | ECast _ a | EFrom _ a => match check G false a with Some l => un_lab l | None => None end
  | EMin a b | ERange a b _ => if public (check G false a) && public (check G false b) then Some Pub else None
  | EField a f => match check G true a with Some l => into_lab G place l (AField f) | None => None end
  | EIndex a i =>
      match check G true a with
      | Some l => if public_or (allow KAt) (check G false i) then into_lab G place l AIndex else None
      | None => None
      end
  | ESlice a lo hi =>
      match check G true a with
      | Some l =>
          if match lo with Some e => public (check G false e) | None => true end &&
             match hi with
             | Some e => public (check G false e)
             | None => match deref_lab G l with Some Pub | Some Sec => true | _ => false end
             end
          then into_lab G place l ASlice else None
      | None => None
      end
  | ERef a => match check G false a with Some l => deref_lab G l | None => None end
  | ERefMut a => check G true a
  | EDeref a => match check G false a with Some l => if place then Some l else deref_lab G l | None => None end
  | EArray es => match sequence (each (check G false) es) with Some ls => array_lab ls | None => None end
  | ERepeat a n | EVecRepeat a n =>
      match check G false a with
      | Some l => if public (check G false n) then un_lab l else None
      | None => None
      end
  | ECapacity _ n => if public (check G false n) then Some Pub else None
  | ECon c es =>
      match sequence (each (check G false) es) with
      | Some ls => Some (Con [(c, ls)])
      | None => None
      end
  | EWhile c b =>
      if public (check G false c) then match check G false b with Some _ => Some Pub | None => None end else None
  | EMap a p b =>
      match check G false a with
      | Some l =>
          match elem l with
          | Some el =>
              match amatch p el with
              | Some A => match check (join_lists A G) false b with Some lb => un_lab lb | None => None end
              | None => None
              end
          | None => None
          end
      | None => None
      end
  | EStruct s fs =>
      match sequence (each (fun f => match check G false (snd f) with Some l => coerce_lab l | None => None end) fs) with
      | Some ls => Some (Rec s (pair_up (each (fun f => fst (fst f)) fs) ls))
      | None => None
      end
  | ECall f es => match sequence (each (check G false) es) with Some ls => call_lab G f ls | None => None end
  | EMethod a m es =>
      match check G true a, sequence (each (check G false) es) with
      | Some l, Some ls =>
          match deref_lab G l with
          | Some (Rec s fs) => call_lab G (s ++ "::" ++ m) (l :: ls)
          | Some (Con cs) =>
              if forallb (fun c => none (type_name (VCon (fst c) []))) cs then builtin_lab G m l (Con cs) ls else None
          | Some lx => builtin_lab G m l lx ls
          | None => None
          end
      | _, _ => None
      end
  | EIf c a b =>
      if public_or (allow KBranch) (check G false c) then
        match check G false a, check G false b with Some la, Some lb => upper la lb | _, _ => None end
      else None
  | EMatch a arms =>
      match check G false a with
      | Some l =>
          match sequence (each (fun x => match amatch (fst x) l with
                                         | Some A => check (join_lists A G) false (snd x)
                                         | None => None
                                         end) arms) with
          | Some (l1 :: ls) => uppers l1 ls
          | _ => None
          end
      | None => None
      end
  | EFor p a b =>
      match check G false a with
      | Some l =>
          match deref_lab G l with
          | Some lx =>
              match elem lx with
              | Some el =>
                  match amatch p el with
                  | Some A => match check (join_lists A G) false b with Some _ => Some Pub | None => None end
                  | None => None
                  end
              | None => None
              end
          | None => None
          end
      | None => None
      end
  | ETry a =>
      match check G false a with
      | Some (Con cs) =>
          if forallb (fun c => String.eqb (fst c) "Ok" || String.eqb (fst c) "Err") cs && sub (Con cs) R then
            match lookup "Ok" cs with Some [l] => Some l | _ => None end
          else None
      | _ => None
      end
  | EVecNew t => Some Pub
  | EReturn a => match check G false a with Some l => if sub l R then Some Pub else None | None => None end
  | EAssign p t a =>
      match check G false a, check G true p with
      | Some l, Some (Ref x q) =>
          match coerce_lab l, walk G x q with
          | Some l', Some lp => if sub l' lp then Some Pub else None
          | _, _ => None
          end
      | _, _ => None
      end
  | EOpAssign op p a =>
      match check G false a, check G true p with
      | Some l, Some (Ref x q) =>
          match walk G x q with
          | Some lp =>
              match bin_lab op lp l with Some l' => if sub l' lp then Some Pub else None | None => None end
          | None => None
          end
      | _, _ => None
      end
  | ELet p t a k =>
      match check G false a with
      | Some l =>
          match coerce_lab l with
          | Some l' =>
              match amatch p (raise a l') with
              | Some A =>
                  match check (join_lists A G) false k with
                  | Some r => Some r
                  | None =>
                      (* a number to which a secret is added later *)
                      match p, a, l' with
                      | PVar x, ELit _, Pub => check ((x, Sec) :: G) false k
                      | _, _, _ => None
                      end
                  end
              | None => None
              end
          | None => None
          end
      | None => None
      end
  | EDeclare x k => check ((x, Sec) :: G) false k
  | ESeq a b => match check G false a with Some _ => check G false b | None => None end
  | _ => None
  end.

Lemma raise_rel e l v v' : rel l v v' -> rel (raise e l) v v'.
Proof. intros H. destruct e, l; cbn [raise]; try exact H; inv H; constructor; assumption. Qed.
Lemma upper_rel a b l v v' : upper a b = Some l -> (rel a v v' -> rel l v v') /\ (rel b v v' -> rel l v v').
Proof.
  unfold upper. destruct (sub a b) eqn:E1; [|destruct (sub b a) eqn:E2].
  1, 2: intros E; injection E as <-; split; intros H; try exact H; eapply sub_rel; eassumption.
  destruct a; try discriminate. destruct b; try discriminate. destruct (forallb _ _) eqn:D; [|discriminate].
  intros E. injection E as <-. split; intros H; inv H; econstructor; try eassumption; rewrite lookup_append.
  - match goal with H : lookup _ _ = _ |- _ => rewrite H end. reflexivity.
  - rewrite forallb_forall in D. match goal with H : lookup _ _ = _ |- _ => specialize (D _ (lookup_member _ _ _ H)) end.
    cbn [fst] in D. destruct (lookup c cs); [discriminate|assumption].
Qed.
Lemma uppers_rel ls : forall l1 l, uppers l1 ls = Some l ->
  Forall (fun m => forall w w', rel m w w' -> rel l w w') (l1 :: ls).
Proof.
  induction ls as [|m ls IH]; cbn [uppers]; intros l1 l E.
  - injection E as <-. constructor; [auto|constructor].
  - destruct (upper l1 m) as [k|] eqn:Ek; [|discriminate]. specialize (IH _ _ E). inversion IH; subst.
    constructor; [|constructor; [|assumption]]; intros w w' H; match goal with X : forall w w', rel k w w' -> _ |- _ => apply X end;
      [exact (proj1 (upper_rel _ _ _ w w' Ek) H)|exact (proj2 (upper_rel _ _ _ w w' Ek) H)].
Qed.
Lemma pub_inv a : public a = true -> a = Some Pub.
Proof. destruct a as [[]|]; cbn; intros H; congruence || discriminate. Qed.
Lemma weaken_j G a b m m' : (forall v v', rel a v v' -> rel b v v') -> jdg G a m m' -> jdg G b m m'.
Proof.
  intros W H r r' E. destruct (H r r' E) as [[E1 E2]|D]; [left|right; exact D]. split; [exact E1|].
  destruct (snd (m r)) as [[o s]| |], (snd (m' r')) as [[o' s']| |]; try contradiction; try exact I.
  destruct E2 as [K1 K2]. split; [|exact K2]. cbn [fst] in *. destruct o, o'; auto.
Qed.
Lemma rels_shape ls vs vs' : rels ls vs vs' -> forall l, array_lab ls = Some l ->
  Forall2 shape vs vs' /\ (l = Pub -> vs = vs') /\ data l.
Proof.
  induction 1 as [|a ls v v' vs vs' Hv _ IH]; cbn [array_lab]; intros l E.
  - injection E as <-. repeat split; auto. left. reflexivity.
  - destruct (array_lab ls) as [m|]; [|discriminate]. destruct (IH _ eq_refl) as [K1 [K2 K3]].
    assert (D : data a /\ data l /\ (l = Pub -> a = Pub /\ m = Pub))
      by (unfold data; destruct a, m; cbn in E; try discriminate; injection E as <-; auto; repeat split; auto; discriminate).
    destruct D as [D1 [D2 D3]]. split; [|split; [|exact D2]].
    + constructor; [exact (rel_shape _ _ _ D1 Hv)|exact K1].
    + intros P. destruct (D3 P) as [-> Pm]. inv Hv. f_equal. auto.
Qed.
Lemma array_shape vs vs' : Forall2 shape vs vs' -> rres shape (array vs) (array vs').
Proof.
  intros H. assert (K : shape (VSeq vs) (VSeq vs')) by (constructor; exact H).
  destruct H as [|v v' vs vs' Hv Hs]; [exact K|]. pose proof Hv as Hv0. inv Hv; try exact K.
  cbn [array]. eapply (rres_bind (fun a b => List.length a = List.length b)); [|intros c d E; constructor; exact E].
  assert (F : Forall2 shape (VInt t a :: vs) (VInt t b :: vs')) by (constructor; assumption).
  revert F. generalize (VInt t a :: vs), (VInt t b :: vs'). intros l l' F.
  induction F as [|x x' l l' Hx _ IH]; cbn [each_res]; [reflexivity|].
  eapply rres_bind; [apply num_shape, Hx|]. intros c d _. eapply rres_bind; [exact IH|]. intros c' d' E. cbn. congruence.
Qed.
Lemma array_rel ls l vs vs' : array_lab ls = Some l -> rels ls vs vs' -> rres (rel l) (array vs) (array vs').
Proof.
  intros E H. destruct (rels_shape _ _ _ H _ E) as [K1 [K2 K3]]. pose proof (array_shape _ _ K1) as S.
  destruct K3 as [->| ->].
  - rewrite <- (K2 eq_refl) in *. apply rres_pub. intros y Ey. rewrite Ey in S. exact S.
  - destruct (array vs), (array vs'); try contradiction; try exact I. constructor. exact S.
Qed.
Lemma struct_rel {A} (f : A -> string) fs ls vs vs' : rels ls vs vs' ->
  renv (pair_up (each f fs) ls) (pair_up (each f fs) vs) (pair_up (each f fs) vs').
Proof.
  intros H. revert ls vs vs' H. induction fs as [|x fs IH]; intros ls vs vs' H; cbn; [constructor|].
  inv H; cbn; constructor; auto.
Qed.

Variable T : target.
Variable call : calleel.
Hypothesis calls : csound call.
Variable n : nat.

Notation ev := (evall T call cst n).

Lemma pure_pub_j G (f : val -> val -> res val) v v' w w' : rel Pub v v' -> rel Pub w w' ->
  (forall y, f v w = Ret y -> shape y y) -> mj G Pub (lift (f v w)) (lift (f v' w')).
Proof. intros H1 H2 F. inv H1. inv H2. apply lift_j, rres_pub, F. Qed.

Lemma check_sound : forall e G place l, check G place e = Some l -> jdg G l (ev place e) (ev place e).
Proof.
  fix IH 1.
  assert (IHs : forall es G ls, sequence (each (check G false) es) = Some ls ->
    jdgs G ls (each (ev false) es) (each (ev false) es)).
  { fix IHs 1. intros [|e es] G ls; cbn [each sequence]; intros E.
    - injection E as <-. constructor.
    - destruct (check G false e) as [l|] eqn:E1; [|discriminate].
      destruct (sequence (each (check G false) es)) as [ls'|] eqn:E2; [|discriminate]. injection E as <-.
      constructor; [apply IH, E1|apply IHs, E2]. }
  Ltac opt C := match type of C with
    | match ?x with Some _ => _ | None => _ end = _ => let E := fresh "C" in destruct x eqn:E; [|discriminate]
    | (if ?x then _ else _) = _ => let E := fresh "C" in destruct x eqn:E; [|discriminate]
    end.
  assert (PUB : forall v v', rel Pub v v' -> v = v') by (intros v v' H; inv H; reflexivity).
  intros e G place l C; destruct e; cbn [check] in C; try discriminate; cbn [evall].
  - (* EUnit *) injection C as <-. apply quiet_j, ret_j. constructor. constructor.
  - (* ELit *) injection C as <-. apply quiet_j, ret_j. constructor. constructor.
  - (* EVar *) apply quiet_j. intros r r' E. destruct (lookup x G) as [m|] eqn:Em; [|discriminate].
    destruct (lookup_rel _ _ _ _ _ E Em) as [v [v' [-> [-> H]]]].
    assert (K : forall m0, m0 = m -> (forall y p, m0 <> Ref y p) -> l = (if place then Ref x [] else m0) ->
      rres (outs G l)
        (match v with VRef p => Ret (Val (VRef p), r) | _ => if place then Ret (Val (VRef (mkPath x [])), r) else Ret (Val v, r) end)
        (match v' with VRef p => Ret (Val (VRef p), r') | _ => if place then Ret (Val (VRef (mkPath x [])), r') else Ret (Val v', r') end)).
    { intros m0 -> N ->.
      assert (N1 : (forall p, v <> VRef p) /\ (forall p, v' <> VRef p)).
      { split; intros p0 Ep; subst; inv H; try (match goal with S : shape _ _ |- _ => inv S end; fail); eapply N; reflexivity. }
      destruct N1 as [N1 N2].
      replace (match v with VRef p => _ | _ => _ end)
        with (Ret (Val (if place then VRef (mkPath x []) else v), r) : res (out * env))
        by (destruct v, place; try reflexivity; exfalso; eapply N1; reflexivity).
      replace (match v' with VRef p => _ | _ => _ end)
        with (Ret (Val (if place then VRef (mkPath x []) else v'), r') : res (out * env))
        by (destruct v', place; try reflexivity; exfalso; eapply N2; reflexivity).
      destruct place; split; cbn; try exact E; [constructor; constructor|exact H]. }
    destruct m; try (injection C as <-; eapply K; [reflexivity| |reflexivity]; intros; discriminate).
    injection C as <-. inv H. split; [constructor; assumption|exact E].
  - (* ECst *) apply quiet_j, lift_j. destruct (cst c) as [v| |]; try discriminate.
    destruct v; try discriminate; injection C as <-; constructor; constructor; reflexivity.
  - (* EBin *) opt C. opt C.
    set (P := bindl (ev false e1) (fun v => bindl (ev false e2) (fun w =>
      noting (divide_event op v w) (quiet (lift (bin T op v w)))))).
    assert (J : bin_lab op l0 l1 = Some l -> jdg G l P P).
    { clear C. intros C. unfold P. eapply bindl_j; [apply IH; eassumption|]. intros v v' Hv.
      eapply bindl_j; [apply IH; eassumption|].
      intros w w' Hw. destruct (bin_rel T _ _ _ _ _ _ _ _ C Hv Hw) as [B1 B2].
      apply noting_j; [exact B2|]. apply quiet_j, lift_j, B1. }
    assert (D : (op = Div \/ op = Rem) -> l0 = Sec -> l1 = Pub -> (if allow KDivide then Some Pub else None) = Some l -> jdg G l P P).
    { intros O -> -> A. destruct (allow KDivide) eqn:K; [|discriminate]. injection A as <-.
      clear J C. subst P. eapply bindl_j; [apply IH; eassumption|]. intros v v' Hv.
      eapply bindl_j; [apply IH; eassumption|]. intros w w' Hw. apply PUB in Hw. subst w'.
      inv Hv. match goal with S : shape v v' |- _ => destruct S as [|b b'|t a b|t i i' Ei|i i' Ei] end;
        try (destruct O as [->| ->]; (apply noting_j; [reflexivity|apply quiet_j, lift_j; exact I])).
      destruct w as [| |u c| | | | | | |]; try (destruct O as [->| ->]; (apply noting_j; [reflexivity|apply quiet_j, lift_j; exact I])).
      assert (X : jdg G Pub (noting [Divide a c] (quiet (lift (bin T op (VInt t a) (VInt u c)))))
        (noting [Divide b c] (quiet (lift (bin T op (VInt t b) (VInt u c)))))).
      { apply noting_first. destruct (N.eq_dec a b) as [->|N]; [right|left; cbn; auto].
        split; [reflexivity|]. apply quiet_j, lift_j, rres_pub. apply bin_plain. }
      destruct O as [->| ->]; exact X. }
    assert (AND : (op = AndAlso \/ op = OrElse) -> l0 = Pub -> l1 = Pub -> l = Pub ->
      jdg G l (ev place (EBin op e1 e2)) (ev place (EBin op e1 e2))).
    { intros O -> -> ->. clear J C D. subst P. destruct O as [->| ->]; cbn [evall]; (eapply bindl_j; [apply IH; eassumption|]);
        intros v v' Hv; apply PUB in Hv; subst v'; (apply noting_j; [reflexivity|]);
        destruct v as [|[]| | | | | | | |]; try (apply quiet_j, stuck_j);
        try (apply IH; assumption); apply quiet_j, ret_j; constructor; constructor. }
    destruct op; try exact (J C);
      try (destruct l0; try exact (J C); destruct l1; try exact (J C); apply D; auto; fail);
      destruct l0, l1; try discriminate; injection C as <-; apply AND; auto.
  - (* ENot *) opt C. eapply bindl_j; [apply IH; eassumption|]. intros v v' Hv.
    apply quiet_j, lift_j. eapply (un_rel (not_ T)); try eassumption. apply not_shape.
  - (* ECast *) opt C. eapply bindl_j; [apply IH; eassumption|]. intros v v' Hv.
    apply quiet_j, lift_j. eapply (un_rel (cast T t)); try eassumption. apply cast_shape.
  - (* EFrom *) opt C. eapply bindl_j; [apply IH; eassumption|]. intros v v' Hv.
    apply quiet_j, lift_j. eapply (un_rel (from t)); try eassumption. apply from_shape.
  - (* EMin *) opt C. injection C as <-. apply andb_prop in C0 as [C1 C2]. apply pub_inv in C1, C2.
    eapply bindl_j; [apply IH; eassumption|]. intros v v' Hv. eapply bindl_j; [apply IH; eassumption|].
    intros w w' Hw. apply quiet_j, (pure_pub_j G min_); try assumption. apply min_plain.
  - (* EField *) opt C. eapply bindl_j; [apply IH; eassumption|]. intros v v' Hv.
    apply quiet_j. eapply into_j; [eassumption|constructor|exact Hv].
  - (* EIndex *) opt C. opt C.
    eapply bindl_j; [apply IH; eassumption|]. intros v v' Hv.
    assert (K : forall w, jdg G l (noting (index_event w) (quiet (fun r => let* k := index_of w in into place v (SIndex k) r)))
      (noting (index_event w) (quiet (fun r => let* k := index_of w in into place v' (SIndex k) r)))).
    { intros w. apply noting_j; [reflexivity|]. apply quiet_j. intros r r' E.
      eapply rres_bind; [apply rres_eq|]. intros k k' <-. eapply into_j; [eassumption|constructor|exact Hv|exact E]. }
    destruct (check G false e2) as [[]|] eqn:C2; try discriminate;
      (eapply bindl_j; [apply IH; eassumption|]); intros w w' Hw.
    + apply PUB in Hw. subst w'. apply K.
    + cbn [public_or] in C1. inv Hw. match goal with S : shape w w' |- _ => destruct S as [|b b'|t a b|t i i' Ei|i i' Ei] end;
        try (apply noting_j; [reflexivity|]; apply quiet_j, stuck_j).
      unfold index_event. cbn [index_of].
      destruct t; try (apply noting_j; [reflexivity|]; apply quiet_j, stuck_j);
        (apply noting_first; destruct (N.eq_dec a b) as [->|N]; [right|left; cbn; auto]);
        (split; [reflexivity|]); apply quiet_j; intros r r' E; cbn [bind];
        (eapply into_j; [eassumption|constructor|exact Hv|exact E]).
  - (* ESlice *) opt C. opt C. apply andb_prop in C1 as [C1 C2].
    eapply bindl_j; [apply IH; eassumption|]. intros v v' Hv.
    eapply (bindl_j G Pub).
    { destruct lo as [e0|]; [apply IH, pub_inv, C1|]. apply quiet_j, ret_j. constructor. constructor. }
    intros w w' Hw. apply PUB in Hw. subst w'.
    eapply (bindl_j G Pub).
    { destruct hi as [e0|]; [apply IH, pub_inv, C2|]. apply quiet_j.
      destruct (deref_lab G l0) as [m|] eqn:Em; [|discriminate].
      assert (D : data m) by (unfold data; destruct m; try discriminate; auto).
      eapply bindm_j; [eapply deref_j; eassumption|]. intros s s' Hs. apply lift_j.
      rewrite (size_shape _ _ (rel_shape _ _ _ D Hs)). destruct (size s'); cbn; auto. constructor. constructor. }
    intros y y' Hy. apply PUB in Hy. subst y'. apply noting_j; [reflexivity|]. apply quiet_j. intros r r' E.
    eapply rres_bind; [apply rres_eq|]. intros k k' <-. eapply rres_bind; [apply rres_eq|]. intros i i' <-.
    eapply into_j; [eassumption|constructor|exact Hv|exact E].
  - (* ERef *) opt C. eapply bindl_j; [apply IH; eassumption|]. intros v v' Hv. apply quiet_j. eapply deref_j; eassumption.
  - (* ERefMut *) apply IH. exact C.
  - (* EDeref *) opt C. eapply bindl_j; [apply IH; eassumption|]. intros v v' Hv. apply quiet_j.
    destruct place; [injection C as <-; apply ret_j, Hv|eapply deref_j; eassumption].
  - (* EArray *) opt C. eapply alll_j; [apply IHs; eassumption|]. intros vs vs' Hvs.
    apply quiet_j, lift_j. eapply array_rel; eassumption.
  - (* ERepeat *) opt C. opt C. apply pub_inv in C1.
    eapply bindl_j; [apply IH; eassumption|]. intros v v' Hv. eapply bindl_j; [apply IH; eassumption|].
    intros w w' Hw. apply PUB in Hw. subst w'. apply noting_j; [reflexivity|]. apply quiet_j, lift_j.
    eapply rres_bind; [apply rres_eq|]. intros k k' <-.
    apply (un_rel (fun v => Ret (repeat_val v k)) l0); try assumption. intros x x' S. apply repeat_shape, S.
  - (* EVecRepeat *) opt C. opt C. apply pub_inv in C1.
    eapply bindl_j; [apply IH; eassumption|]. intros v v' Hv. eapply bindl_j; [apply IH; eassumption|].
    intros w w' Hw. apply PUB in Hw. subst w'. apply noting_j; [reflexivity|]. apply quiet_j, lift_j.
    eapply rres_bind; [apply rres_eq|]. intros k k' <-. eapply rres_bind; [apply rres_eq|]. intros u u' <-.
    apply (un_rel (fun v => Ret (repeat_val v k)) l0); try assumption. intros x x' S. apply repeat_shape, S.
  - (* EVecNew *) injection C as <-. apply quiet_j, ret_j. destruct t; constructor; repeat constructor.
  - (* ECapacity *) opt C. injection C as <-. apply pub_inv in C0.
    eapply bindl_j; [apply IH; eassumption|].
    intros w w' Hw. apply PUB in Hw. subst w'. apply noting_j; [reflexivity|]. apply quiet_j, lift_j.
    eapply rres_bind; [apply rres_eq|]. intros k k' <-. eapply rres_bind; [apply rres_eq|]. intros u u' <-.
    cbn. constructor. destruct t; constructor; reflexivity || constructor.
  - (* EStruct *) opt C. injection C as <-.
    assert (J : jdgs G l0
      (each (fun f => bindl (ev false (snd f)) (fun v => quiet (lift (coerce (snd (fst f)) v)))) fs)
      (each (fun f => bindl (ev false (snd f)) (fun v => quiet (lift (coerce (snd (fst f)) v)))) fs)).
    { revert l0 C0. revert fs. fix IHf 1. intros [|[[x t] e] fs] ls; cbn [each sequence fst snd]; intros E.
      - injection E as <-. constructor.
      - destruct (check G false e) as [m|] eqn:E1; [|discriminate].
        destruct (coerce_lab m) as [m'|] eqn:E2; [|discriminate].
        match type of E with match ?x with _ => _ end = _ => destruct x as [ls'|] eqn:E3; [|discriminate] end.
        injection E as <-. constructor; [|apply IHf, E3].
        eapply bindl_j; [apply IH, E1|]. intros v v' Hv. apply quiet_j, lift_j. eapply coerce_rel; eassumption. }
    eapply alll_j; [exact J|]. intros vs vs' Hvs. apply quiet_j, ret_j. constructor. apply struct_rel, Hvs.
  - (* ECon *) opt C. injection C as <-. eapply alll_j; [apply IHs; eassumption|]. intros vs vs' Hvs.
    apply quiet_j, ret_j. econstructor; [|eassumption]. cbn [lookup]. rewrite String.eqb_refl. reflexivity.
  - (* ECall *) opt C. eapply alll_j; [apply IHs; eassumption|]. intros vs vs' Hvs. eapply do_calll_j; eassumption.
  - (* EMethod *) opt C. opt C. destruct (deref_lab G l0) as [lx|] eqn:D; [|discriminate].
    eapply bindl_j; [apply IH; eassumption|]. intros v v' Hv.
    eapply alll_j; [apply IHs; eassumption|]. intros vs vs' Hvs.
    eapply bindl_j; [apply quiet_j; eapply deref_j; eassumption|]. intros x x' Hx.
    destruct lx as [| |s fs|ts|k|cs|y q]; try discriminate.
    + assert (N : type_name x = None /\ type_name x' = None /\ size x = size x').
      { inv Hx. match goal with S : shape _ _ |- _ => inv S end; repeat split; reflexivity. }
      destruct N as [-> [-> N]]. apply noting_j; [unfold std_event; rewrite N; reflexivity|].
      apply quiet_j. eapply builtin_j; eassumption.
    + assert (N : type_name x = None /\ type_name x' = None /\ size x = size x').
      { inv Hx. match goal with S : shape _ _ |- _ => pose proof (size_shape _ _ S) as Z; inv S end; repeat split; try reflexivity; exact Z. }
      destruct N as [-> [-> N]]. apply noting_j; [unfold std_event; rewrite N; reflexivity|].
      apply quiet_j. eapply builtin_j; eassumption.
    + inv Hx. cbn [type_name]. eapply do_calll_j; [exact calls|exact C|]. constructor; assumption.
    + inv Hx. cbn [type_name]. apply noting_j; [reflexivity|]. apply quiet_j. eapply builtin_j; try eassumption. constructor; assumption.
    + inv Hx. cbn [type_name]. apply noting_j.
      { unfold std_event. cbn [size]. unfold len. erewrite forall2_len by eassumption. reflexivity. }
      apply quiet_j. eapply builtin_j; try eassumption. constructor; assumption.
    + destruct (forallb _ _) eqn:FN; [|discriminate]. rewrite forallb_forall in FN. pose proof Hx as Hx'. inv Hx.
      match goal with H : lookup _ cs = _ |- _ => specialize (FN _ (lookup_member _ _ _ H)) end.
      match goal with |- context [VCon ?c ?vs] => assert (N : forall us, type_name (VCon c us) = None)
        by (intros us; cbn [fst type_name] in *; destruct (parent c); [discriminate FN|reflexivity]) end.
      rewrite !N. apply noting_j; [reflexivity|]. apply quiet_j. eapply builtin_j; eassumption.
    + inv Hx. cbn [type_name]. apply noting_j; [reflexivity|]. apply quiet_j. eapply builtin_j; try eassumption. constructor; assumption.
  - (* EMap *) opt C. opt C. opt C. opt C.
    assert (D : data l2 /\ l = l2) by (unfold data; destruct l2; try discriminate; injection C as <-; auto).
    destruct D as [D ->].
    eapply bindl_j; [apply IH; eassumption|].
    intros v v' Hv. pose proof (items_rel _ _ _ _ C1 Hv) as I1. unfold times_event.
    destruct (items v) as [xs| |], (items v') as [xs'| |]; try contradiction;
      try (apply noting_j; [reflexivity|]; apply quiet_j; intros r r' E; exact I).
    cbn [rres] in I1. apply noting_j; [rewrite (forall2_len _ _ _ I1); reflexivity|].
    eapply map_itemsl_j; [exact D| |exact I1]. intros w w' Hw. eapply bindingl_j; [eassumption|exact Hw|]. apply IH. eassumption.
  - (* ERange *) opt C. injection C as <-. apply andb_prop in C0 as [C1 C2]. apply pub_inv in C1, C2.
    eapply bindl_j; [apply IH; eassumption|]. intros v v' Hv. eapply bindl_j; [apply IH; eassumption|].
    intros w w' Hw. apply quiet_j, (pure_pub_j G (fun v w => range v w incl)); try assumption. apply range_plain.
  - (* EIf *) opt C. opt C. opt C.
    assert (K : forall v, jdg G l
      match v with VBool true => ev false e2 | VBool false => ev false e3 | _ => quiet (fun _ => Diverge) end
      match v with VBool true => ev false e2 | VBool false => ev false e3 | _ => quiet (fun _ => Diverge) end).
    { intros v. destruct v as [|[]| | | | | | | |]; try (apply quiet_j, stuck_j);
        (eapply weaken_j; [|apply IH; eassumption]); intros w w' H;
        [exact (proj1 (upper_rel _ _ _ w w' C) H)|exact (proj2 (upper_rel _ _ _ w w' C) H)]. }
    destruct (check G false e1) as [[]|] eqn:C3; try discriminate;
      (eapply bindl_j; [apply IH; eassumption|]); intros v v' Hv.
    + apply PUB in Hv. subst v'. apply noting_j; [reflexivity|]. apply K.
    + cbn [public_or] in C0. inv Hv. match goal with S : shape v v' |- _ => destruct S as [|b b'|t a b|t i i' Ei|i i' Ei] end;
        try (apply noting_j; [reflexivity|]; apply quiet_j, stuck_j).
      cbn [branch_event]. apply noting_first. destruct (bool_dec b b') as [->|N]; [right|left; cbn; auto].
      split; [reflexivity|]. exact (K (VBool b')).
  - (* EMatch *) opt C. opt C. destruct l1 as [|l1 ls]; [discriminate|].
    eapply bindl_j; [apply IH; eassumption|]. intros v v' Hv.
    assert (K : Forall (fun m => forall w w', rel m w w' -> rel l w w') (l1 :: ls)) by (apply uppers_rel, C).
    revert K C1. generalize (l1 :: ls) as ms. generalize 0%nat as k. clear C C0 IHs. revert arms.
    fix IHa 1. intros [|[p b] arms] k ms K C1; cbn [each sequence fst snd] in C1; cbn [each first_arml fst snd].
    + intros r r' E. left. split; [reflexivity|exact I].
    + destruct (amatch p l0) as [A|] eqn:EA; [|discriminate].
      destruct (check (join_lists A G) false b) as [m|] eqn:EB; [|discriminate].
      match type of C1 with match ?x with _ => _ end = _ => destruct x as [ms'|] eqn:E3; [|discriminate] end.
      injection C1 as <-. inversion K; subst. intros r r' E.
      pose proof (match_rel _ _ _ _ _ EA Hv) as Q. unfold both in Q.
      destruct (matches p v) as [n1|], (matches p v') as [n1'|]; try contradiction.
      * revert E. apply noting_j; [reflexivity|]. eapply scopedl_j; [exact Q|].
        eapply weaken_j; [|apply IH, EB]. assumption.
      * eapply IHa; eassumption.
  - (* EWhile *) opt C. opt C. injection C as <-. apply pub_inv in C0.
    eapply whilel_j; apply IH; eassumption.
  - (* EFor *) opt C. opt C. opt C. opt C. opt C. injection C as <-.
    eapply bindl_j.
    { eapply bindl_j; [apply IH; eassumption|]. intros v v' Hv. apply quiet_j. eapply deref_j; eassumption. }
    intros v v' Hv. pose proof (items_rel _ _ _ _ C2 Hv) as I1. unfold times_event.
    destruct (items v) as [xs| |], (items v') as [xs'| |]; try contradiction;
      try (apply noting_j; [reflexivity|]; apply quiet_j; intros r r' E; exact I).
    cbn [rres] in I1. apply noting_j; [rewrite (forall2_len _ _ _ I1); reflexivity|].
    eapply for_itemsl_j; [|exact I1]. intros w w' Hw. eapply bindingl_j; [eassumption|exact Hw|]. apply IH. eassumption.
  - (* EReturn *) opt C. opt C. injection C as <-. eapply bindl_j; [apply IH; eassumption|]. intros v v' Hv.
    apply quiet_j. intros r r' E. split; [|exact E]. cbn. eapply sub_rel; eassumption.
  - (* EContinue *) injection C as <-. apply quiet_j. intros r r' E. split; [exact I|exact E].
  - (* ETry *) opt C. destruct l0 as [| | | | |cs|]; try discriminate. opt C. apply andb_prop in C1 as [C1 C2].
    destruct (lookup "Ok" cs) as [[|lx [|]]|] eqn:EO; try discriminate. injection C as <-.
    eapply bindl_j; [apply IH; eassumption|]. intros v v' Hv. pose proof (sub_rel _ _ _ _ C2 Hv) as Hr. inv Hv.
    rewrite forallb_forall in C1.
    match goal with H : lookup c cs = _ |- _ => pose proof (C1 _ (lookup_member _ _ _ H)) as K; rename H into Ec end.
    cbn [fst] in K. apply orb_prop in K as [K|K]; apply String.eqb_eq in K; subst c.
    + rewrite EO in Ec. injection Ec as <-. match goal with H : rels [lx] _ _ |- _ => inv H end.
      match goal with H : rels [] _ _ |- _ => inv H end. apply noting_j; [reflexivity|]. apply quiet_j, ret_j. assumption.
    + match goal with H : rels _ vs vs' |- _ => inv H end; [apply quiet_j, stuck_j|].
      match goal with H : rels _ _ _ |- _ => inv H end; [|apply quiet_j, stuck_j].
      apply noting_j; [reflexivity|]. apply quiet_j. intros r r' E. split; [exact Hr|exact E].
  - (* EAssign *) opt C. opt C. destruct l1 as [| | | | | |x q]; try discriminate. opt C. opt C. opt C. injection C as <-.
    eapply bindl_j; [apply IH; eassumption|]. intros v v' Hv.
    eapply bindl_j; [apply quiet_j, lift_j; eapply coerce_rel; eassumption|]. intros w w' Hw.
    eapply bindl_j; [apply IH; eassumption|]. intros y y' Hy. inv Hy. apply quiet_j.
    eapply set_place_j; [eassumption|assumption|]. eapply sub_rel; eassumption.
  - (* EOpAssign *) opt C. opt C. destruct l1 as [| | | | | |x q]; try discriminate. opt C. opt C. opt C. injection C as <-.
    eapply bindl_j; [apply IH; eassumption|]. intros v v' Hv.
    eapply bindl_j; [apply IH; eassumption|]. intros y y' Hy. inv Hy.
    eapply (bindl_j G l1); [apply quiet_j; eapply (deref_j G (Ref x q)); [exact C2|constructor; assumption]|]. intros w w' Hw.
    destruct (bin_rel T _ _ _ _ _ _ _ _ C3 Hw Hv) as [B1 B2].
    apply noting_j; [exact B2|]. apply quiet_j. eapply bindm_j; [apply lift_j; exact B1|]. intros z z' Hz.
    eapply set_place_j; [eassumption|assumption|]. eapply sub_rel; eassumption.
  - (* ELet *) opt C. opt C. opt C. eapply bindl_j; [apply IH; eassumption|]. intros v v' Hv.
    eapply bindl_j; [apply quiet_j, lift_j; eapply coerce_rel; eassumption|]. intros w w' Hw.
    match type of C with match ?c with _ => _ end = _ => destruct c as [m|] eqn:Ck end.
    + injection C as <-. eapply bindingl_j; [eassumption|apply raise_rel, Hw|]. apply IH, Ck.
    + destruct p; try discriminate. destruct e1; try discriminate. destruct l1; try discriminate.
      apply (bindingl_j G [(x, Sec)] Sec); [reflexivity| |apply IH, C].
      eapply sub_rel; [|exact Hw]. reflexivity.
  - (* EDeclare *) eapply (scopedl_j G [(x, Sec)]).
    + constructor; [constructor; constructor|constructor].
    + apply IH, C.
  - (* ESeq *) opt C. eapply bindl_j; [apply IH; eassumption|]. intros _ _ _. apply IH, C.
Qed.

End Flow.

(** * Functions *)

Definition keeps (l : lab) : bool := match coerce_lab l with Some _ => true | None => false end.
Lemma keeps_rel t l v v' : keeps l = true -> rel l v v' -> rres (rel l) (coerce t v) (coerce t v').
Proof. intros K H. apply (coerce_rel t l); [|exact H]. destruct l; discriminate || reflexivity. Qed.

Fixpoint aframe (ps : list (string * mode * ty)) (ins : list lab) : option aenv :=
  match ps, ins with
  | [], [] => Some []
  | (x, ByVal, _) :: ps', l :: ins' =>
      match aframe ps' ins' with Some G => if keeps l then Some ((x, l) :: G) else None | None => None end
  | (x, ByMut, _) :: ps', l :: ins' =>
      match aframe ps' ins' with
      | Some G => if keeps l then Some ((x, Ref (deref_name x) []) :: (deref_name x, l) :: G) else None
      | None => None
      end
  | _, _ => None
  end.
Fixpoint finals_ok (G : aenv) (ps : list (string * mode * ty)) (ins : list lab) : bool :=
  match ps, ins with
  | [], [] => true
  | (x, ByVal, _) :: ps', _ :: ins' => finals_ok G ps' ins'
  | (x, ByMut, _) :: ps', l :: ins' =>
      match lookup (deref_name x) G with Some m => sub m l | None => false end && finals_ok G ps' ins'
  | _, _ => false
  end.
Lemma frame_rel : forall ps ins G vs vs', aframe ps ins = Some G -> rels ins vs vs' ->
  rres (renv G) (frame ps vs) (frame ps vs').
Proof.
  induction ps as [|[[x []] t] ps IH]; intros [|l ins] G vs vs' E H; cbn [aframe] in E; try discriminate.
  - injection E as <-. inv H. constructor.
  - destruct (aframe ps ins) as [G'|] eqn:E1; [|discriminate]. destruct (keeps l) eqn:K; [|discriminate].
    injection E as <-. inv H. cbn [frame].
    eapply rres_bind; [eapply keeps_rel; eassumption|]. intros a b Hab.
    eapply rres_bind; [eapply IH; eassumption|]. intros r r' Hr. constructor; assumption.
  - destruct (aframe ps ins) as [G'|] eqn:E1; [|discriminate]. destruct (keeps l) eqn:K; [|discriminate].
    injection E as <-. inv H. cbn [frame].
    eapply rres_bind; [eapply keeps_rel; eassumption|]. intros a b Hab.
    eapply rres_bind; [eapply IH; eassumption|]. intros r r' Hr.
    constructor; [constructor; constructor|]. constructor; assumption.
Qed.
Lemma finals_rel G r r' : renv G r r' -> forall ps ins, finals_ok G ps ins = true ->
  rres (routs ins) (finals ps r) (finals ps r').
Proof.
  intros E. unfold finals. induction ps as [|[[x []] t] ps IH]; intros [|l ins] F; cbn [finals_ok] in F; try discriminate.
  - constructor.
  - cbn [each_res bind]. eapply rres_bind; [eapply IH, F|]. intros a b K. constructor. exact K.
  - apply andb_prop in F as [F1 F2]. destruct (lookup (deref_name x) G) as [m|] eqn:Em; [|discriminate].
    cbn [each_res]. eapply (rres_bind (fun a b => exists v v', a = Some v /\ b = Some v' /\ rel l v v')).
    + eapply rres_bind; [eapply find_rel; eassumption|]. intros v v' K. cbn. exists v, v'.
      repeat split; try reflexivity. eapply sub_rel; eassumption.
    + intros a b [v [v' [-> [-> K]]]]. eapply rres_bind; [eapply IH, F2|]. intros c d K2. constructor; assumption.
Qed.

Definition check_fn (allow : kind -> bool) (sigs : list (string * (list lab * lab))) (cst : string -> res val) (d : fn)
    (ins : list lab) (o : lab) : bool :=
  match aframe (params d) ins with
  | Some G =>
      finals_ok G (params d) ins && keeps o &&
      match check allow o sigs cst G false (body d) with Some l => sub l o | None => false end
  | None => false
  end.
Definition check_all (allow : kind -> bool) (sigs : list (string * (list lab * lab))) (cs : list (string * (ty * expr)))
    (fs : list (string * fn)) : bool :=
  forallb (fun s => match lookup (fst s) fs with
                    | Some d => check_fn allow sigs (constant cs) d (fst (snd s)) (snd (snd s))
                    | None => false
                    end) sigs.

Lemma check_fn_sound allow sigs cst T call n d ins o : csound allow sigs call -> check_fn allow sigs cst d ins o = true ->
  forall vs vs', rels ins vs vs' ->
  near allow (fun a b => rel o (fst a) (fst b) /\ routs ins (snd a) (snd b))
    (observe_fn T call cst n d vs) (observe_fn T call cst n d vs').
Proof.
  intros C K vs vs' H. unfold check_fn in K. destruct (aframe (params d) ins) as [G|] eqn:E; [|discriminate].
  apply andb_prop in K as [K K3]. apply andb_prop in K as [K1 K2].
  destruct (check allow o sigs cst G false (body d)) as [l|] eqn:E3; [|discriminate].
  pose proof (frame_rel _ _ _ _ _ E H) as F. unfold observe_fn.
  destruct (frame (params d) vs) as [r| |], (frame (params d) vs') as [r'| |]; try contradiction;
    try (left; split; [reflexivity|exact I]).
  cbn [rres] in F.
  pose proof (check_sound allow o sigs cst T call C n _ _ _ _ E3 r r' F) as J.
  destruct (evall T call cst n false (body d) r) as [t x], (evall T call cst n false (body d) r') as [t' x'].
  apply (near_then _ _ _ (t, x) (t', x') _ _ J). intros [u s] [u' s'] [Q1 Q2]. cbn [fst snd] in *.
  eapply (rres_bind (rel o)).
  - destruct u, u'; try contradiction; try exact I; apply keeps_rel; try assumption. eapply sub_rel; eassumption.
  - intros a b Hab. eapply rres_bind; [eapply finals_rel; eassumption|]. intros c e Hc. split; assumption.
Qed.

Lemma lookup_in {A} x (l : list (string * A)) v : lookup x l = Some v -> In (x, v) l.
Proof.
  induction l as [|[y w] l IH]; cbn; [discriminate|]. destruct (String.eqb x y) eqn:E.
  - apply String.eqb_eq in E. subst y. intros H. injection H as <-. left. reflexivity.
  - intros H. right. apply IH, H.
Qed.
Theorem check_all_sound allow sigs cs fs : check_all allow sigs cs fs = true ->
  forall T n, csound allow sigs (observe_in T cs fs n).
Proof.
  intros A T. induction n as [|n IH]; intros f ins o F vs vs' H; cbn [observe_in].
  - left. split; [reflexivity|exact I].
  - unfold check_all in A. rewrite forallb_forall in A. specialize (A _ (lookup_in _ _ _ F)). cbn [fst snd] in A.
    unfold find. destruct (lookup f fs) as [d|]; [|discriminate].
    eapply check_fn_sound; eassumption.
Qed.

(** Nothing may be shown. *)
Definition nothing (k : kind) : bool := false.
Lemma near_nothing {A} (P : A -> A -> Prop) x x' : near nothing P x x' -> fst x = fst x' /\ rres P (snd x) (snd x').
Proof.
  intros [H|(c & e & e' & s & s' & _ & _ & D)]; [exact H|]. destruct e, e'; cbn in D; try contradiction;
    destruct D; discriminate.
Qed.
Theorem check_nothing_sound sigs cs fs : check_all nothing sigs cs fs = true ->
  forall T n f ins o, lookup f sigs = Some (ins, o) -> forall vs vs', rels ins vs vs' ->
  fst (observe_in T cs fs n f vs) = fst (observe_in T cs fs n f vs') /\
  rres (fun a b => rel o (fst a) (fst b) /\ routs ins (snd a) (snd b))
    (snd (observe_in T cs fs n f vs)) (snd (observe_in T cs fs n f vs')).
Proof. intros A T n f ins o F vs vs' H. apply near_nothing. exact (check_all_sound nothing sigs cs fs A T n f ins o F vs vs' H). Qed.
