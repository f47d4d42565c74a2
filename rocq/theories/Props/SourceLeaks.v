(** C111: what the text of scrypt and of AES shows of the secrets, and nothing else. *)
From Coq Require Import NArith List String Bool Lia.
From Verif Require Import Rust.
From Verif.Source Require Import Syntax Interp Tree Calls Observe.
From Verif.Proofs Require Import SourceFlow.
From Verif.Proofs Require SourceObserve.
From Verif.Props Require Import SourceFlow.
Import ListNotations.
Local Open Scope string_scope.
Local Open Scope N_scope.

(** The events of a record that may depend on secrets. *)
Definition of_kind (allow : kind -> bool) (e : event) : bool :=
  match e with
  | At _ => allow KAt
  | Branch _ => allow KBranch
  | Divide _ _ => allow KDivide
  | _ => false
  end.

Lemma parts_filter allow t t' : parts allow t t' -> filter (of_kind allow) t <> filter (of_kind allow) t'.
Proof.
  intros (c & e & e' & s & s' & -> & -> & D). rewrite !filter_app. intros E. apply app_inv_head in E.
  destruct e, e'; try contradiction; cbn [differ] in D; destruct D as [A D]; cbn [filter of_kind] in E;
    rewrite A in E; injection E; intros; subst; tauto.
Qed.

(** For every program: two calls of a function that the check accepts, with
    arguments that differ in secret data only, have the same record, or their
    records differ first in an event of an allowed kind.  When the events of these
    kinds are the same in both, so is everything else, and both return, both panic
    or both run out of fuel. *)
Theorem C111_check_is_right : forall allow sigs constants functions, check_all allow sigs constants functions = true ->
  forall f ins o, lookup f sigs = Some (ins, o) ->
  forall T fuel args args', rels ins args args' ->
  let t := fst (observe_in T constants functions fuel f args) in
  let t' := fst (observe_in T constants functions fuel f args') in
  (t = t' \/
   exists common e e' rest rest', t = (common ++ e :: rest)%list /\ t' = (common ++ e' :: rest')%list /\
     differ allow e e') /\
  (filter (of_kind allow) t = filter (of_kind allow) t' ->
   t = t' /\ same_end (interp T constants functions fuel f args) (interp T constants functions fuel f args')).
Proof.
  intros allow sigs cs fs A f ins o F T n vs vs' H t t'.
  pose proof (check_all_sound allow sigs cs fs A T n f ins o F vs vs' H) as [[E1 E2]|D].
  - split; [left; exact E1|]. intros _. split; [exact E1|]. rewrite !Proofs.SourceObserve.observe_in_erases in E2.
    destruct (interp T cs fs n f vs), (interp T cs fs n f vs'); cbn in *; auto.
  - split; [right; exact D|]. intros E. apply parts_filter in D. contradiction.
Qed.
Print Assumptions C111_check_is_right.

(** * scrypt *)

Definition result (ok : lab) (errors : list string) : lab :=
  Con [("Ok", [ok]); ("Err", [Con (map (fun e => (e, [])) errors)])].
Definition dividends (k : kind) : bool := match k with KDivide => true | _ => false end.
Definition scrypt_sigs : list (string * (list lab * lab)) :=
  (pbkdf2_sigs ++ mix_sigs ++
   [("scrypt::Scrypt::ro_mix", ([scrypt; Sec], Sec));
    ("scrypt::Scrypt::derive", ([scrypt; Sec; Sec; Sec],
      result Pub ["scrypt::ScryptError::RIsTooSmall"; "scrypt::ScryptError::NIsTooSmall";
                  "scrypt::ScryptError::NIsNotAPowerOfTwo"; "scrypt::ScryptError::PIsTooSmall"]))])%list.
Lemma scrypt_accepted : check_all dividends scrypt_sigs constants functions = true.
Proof. vm_compute. reflexivity. Qed.

(** Deriving a key shows the parameters, the lengths of passphrase, salt and
    output, and the numbers that are divided; nothing else of passphrase and salt.
    The first difference of two records is in a number that is divided, never in
    what it is divided by. *)
Definition divisions (t : list event) : list event := filter (fun e => match e with Divide _ _ => true | _ => false end) t.
Theorem C111_scrypt : forall T fuel r n p pass pass' salt salt' out out',
  List.length pass = List.length pass' -> List.length salt = List.length salt' -> List.length out = List.length out' ->
  let self := VStruct "scrypt::Scrypt" [("r", VInt Usize r); ("n", VInt Usize n); ("p", VInt Usize p)] in
  let args := [self; VNums U8 pass; VNums U8 salt; VNums U8 out] in
  let args' := [self; VNums U8 pass'; VNums U8 salt'; VNums U8 out'] in
  let t := fst (observe T fuel "scrypt::Scrypt::derive" args) in
  let t' := fst (observe T fuel "scrypt::Scrypt::derive" args') in
  (t = t' \/
   exists common a b by_ rest rest', t = (common ++ Divide a by_ :: rest)%list /\
     t' = (common ++ Divide b by_ :: rest')%list /\ a <> b) /\
  (divisions t = divisions t' ->
   t = t' /\ same_end (run T fuel "scrypt::Scrypt::derive" args) (run T fuel "scrypt::Scrypt::derive" args')).
Proof.
  intros T k r n p pw pw' s s' out out' E1 E2 E3 self args args' t t'.
  destruct (C111_check_is_right dividends scrypt_sigs constants functions scrypt_accepted
    "scrypt::Scrypt::derive" _ _ eq_refl T k args args') as [A B].
  { constructor; [repeat (constructor; [repeat constructor|] || constructor)|].
    constructor; [apply bytes_rel, E1|]. constructor; [apply bytes_rel, E2|].
    constructor; [apply bytes_rel, E3|constructor]. }
  split.
  - destruct A as [A|(c & e & e' & u & u' & A1 & A2 & D)]; [left; exact A|right].
    destruct e, e'; try contradiction; cbn [differ] in D; destruct D as [D1 D2]; try discriminate.
    destruct D2 as [D2 <-]. eexists c, _, _, _, u, u'. split; [exact A1|]. split; [exact A2|exact D2].
  - intros E. apply B. unfold divisions in E.
    assert (F : forall l, filter (of_kind dividends) l = filter (fun e => match e with Divide _ _ => true | _ => false end) l)
      by (intros l; apply filter_ext; intros []; reflexivity).
    rewrite !F. exact E.
Qed.
Print Assumptions C111_scrypt.

(** * AES *)

Definition aes : lab := Rec "aes::AES" [("round_count", Pub); ("round_keys", maybe)].
Definition indices_and_branches (k : kind) : bool := match k with KAt | KBranch => true | _ => false end.
Definition aes_sigs : list (string * (list lab * lab)) :=
  (block_sigs ++
   [("aes::double", ([Sec], Sec));
    ("aes::mul", ([Sec; Pub], Sec));
    ("aes::sub_word", ([Sec], Sec));
    ("aes::expand_key", ([Sec; Pub], Sec));
    ("aes::AESEncrypt::lookup_sbox", ([Sec], Sec));
    ("aes::AESEncrypt::mix_column", ([Sec], Sec));
    ("aes::AESEncrypt::sub_bytes", ([Sec], Pub));
    ("aes::AESEncrypt::mix_columns", ([Sec], Pub));
    ("aes::AESDecrypt::lookup_sbox", ([Sec], Sec));
    ("aes::AESDecrypt::mix_column", ([Sec], Sec));
    ("aes::AESDecrypt::sub_bytes", ([Sec], Pub));
    ("aes::AESDecrypt::mix_columns", ([Sec], Pub));
    ("aes::AES::new", ([], aes));
    ("aes::AES::init", ([aes; Sec], result Pub ["aes::AESError::InvalidKeySize"]));
    ("aes::AES::encrypt", ([aes; Sec], result Sec ["aes::AESError::NotInitialized"]));
    ("aes::AES::decrypt", ([aes; Sec], result Sec ["aes::AESError::NotInitialized"]));
    ("aes::AES::default", ([], aes))])%list.
Lemma aes_accepted : check_all indices_and_branches aes_sigs constants functions = true.
Proof. vm_compute. reflexivity. Qed.

(** The part of a record that shows something of the key and of the data. *)
Definition accesses (t : list event) : list event :=
  filter (fun e => match e with At _ | Branch _ => true | _ => false end) t.
(** Two records that differ first in one index or in one branch. *)
Definition access_differs (t t' : list event) : Prop :=
  exists common e e' rest rest', t = (common ++ e :: rest)%list /\ t' = (common ++ e' :: rest')%list /\
    ((exists i j, e = At i /\ e' = At j /\ i <> j) \/ (exists b, e = Branch b /\ e' = Branch (negb b))).

Lemma parts_access t t' : parts indices_and_branches t t' -> access_differs t t'.
Proof.
  intros (c & e & e' & u & u' & A1 & A2 & D). exists c, e, e', u, u'. split; [exact A1|]. split; [exact A2|].
  destruct e, e'; try contradiction; cbn [differ] in D; destruct D as [D1 D2]; try discriminate.
  - right. eexists. split; [reflexivity|]. destruct b, b0; cbn; congruence.
  - left. eexists _, _. split; [reflexivity|]. split; [reflexivity|exact D2].
Qed.
Lemma of_accesses t : filter (of_kind indices_and_branches) t = accesses t.
Proof. unfold accesses. apply filter_ext. intros []; reflexivity. Qed.
Lemma aes_shows f ins o : lookup f aes_sigs = Some (ins, o) -> forall T fuel args args', rels ins args args' ->
  let t := fst (observe T fuel f args) in
  let t' := fst (observe T fuel f args') in
  (t = t' \/ access_differs t t') /\
  (accesses t = accesses t' -> t = t' /\ same_end (run T fuel f args) (run T fuel f args')).
Proof.
  intros F T n args args' H t t'.
  destruct (C111_check_is_right indices_and_branches aes_sigs constants functions aes_accepted f ins o F T n args args' H) as [A B].
  split; [destruct A as [A|A]; [left; exact A|right; apply parts_access, A]|].
  intros E. apply B. rewrite !of_accesses. exact E.
Qed.

(** Setting a key shows its length, and what the indices and branches show. *)
Definition aes_object (round_count : N) (round_keys : option (list N)) : val :=
  VStruct "aes::AES" [("round_count", VInt Usize round_count);
    ("round_keys", match round_keys with Some w => VCon "Some" [VNums U32 w] | None => VCon "None" [] end)].
Definition alike_keys (w w' : option (list N)) : Prop :=
  match w, w' with
  | Some l, Some l' => List.length l = List.length l'
  | None, None => True
  | _, _ => False
  end.
Lemma aes_object_rel k w w' : alike_keys w w' -> rel aes (aes_object k w) (aes_object k w').
Proof.
  intros H. constructor. constructor; [constructor; constructor|]. constructor; [|constructor].
  destruct w, w'; try contradiction; econstructor; try reflexivity; repeat constructor. exact H.
Qed.
Theorem C111_aes_init : forall T fuel k w w' key key', alike_keys w w' -> List.length key = List.length key' ->
  let args := [aes_object k w; VNums U8 key] in
  let args' := [aes_object k w'; VNums U8 key'] in
  let t := fst (observe T fuel "aes::AES::init" args) in
  let t' := fst (observe T fuel "aes::AES::init" args') in
  (t = t' \/ access_differs t t') /\
  (accesses t = accesses t' ->
   t = t' /\ same_end (run T fuel "aes::AES::init" args) (run T fuel "aes::AES::init" args')).
Proof.
  intros T n k w w' key key' H E args args'. apply (aes_shows "aes::AES::init" _ _ eq_refl).
  constructor; [apply aes_object_rel, H|]. constructor; [apply bytes_rel, E|constructor].
Qed.
Print Assumptions C111_aes_init.

(** So does encrypting or decrypting a block: the number of rounds, the lengths,
    and what the indices and branches show. *)
Theorem C111_aes_block : forall f, In f ["aes::AES::encrypt"; "aes::AES::decrypt"] ->
  forall T fuel k w w' block block', alike_keys w w' -> List.length block = List.length block' ->
  let args := [aes_object k w; VNums U8 block] in
  let args' := [aes_object k w'; VNums U8 block'] in
  let t := fst (observe T fuel f args) in
  let t' := fst (observe T fuel f args') in
  (t = t' \/ access_differs t t') /\
  (accesses t = accesses t' -> t = t' /\ same_end (run T fuel f args) (run T fuel f args')).
Proof.
  intros f I T n k w w' b b' H E args args'.
  assert (R : rels [aes; Sec] args args')
    by (constructor; [apply aes_object_rel, H|]; constructor; [apply bytes_rel, E|constructor]).
  destruct I as [<-|[<-|[]]].
  - exact (aes_shows "aes::AES::encrypt" _ _ eq_refl T n args args' R).
  - exact (aes_shows "aes::AES::decrypt" _ _ eq_refl T n args args' R).
Qed.
Print Assumptions C111_aes_block.

(** * CBC *)

Definition cipher : lab := Rec "aes_cbc::Cipher" [("aes", aes); ("pad", pad); ("iv", Sec)].
Definition decipher : lab :=
  Rec "aes_cbc::Decipher" [("aes", aes); ("unpad", unpad); ("iv", Sec); ("buffer", pad)].
Definition cbc_sigs : list (string * (list lab * lab)) :=
  (aes_sigs ++ pad_sigs ++
   [("aes_cbc::Cipher::new", ([Sec], cipher));
    ("aes_cbc::Cipher::init", ([cipher; Sec], result Pub ["aes::AESError::InvalidKeySize"]));
    ("aes_cbc::Cipher::write", ([cipher; Sec], result Sec ["aes::AESError::NotInitialized"]));
    ("aes_cbc::Cipher::flush", ([cipher], result Sec ["aes::AESError::NotInitialized"]));
    ("aes_cbc::Cipher::encrypt_block", ([cipher; Sec], result Sec ["aes::AESError::NotInitialized"]));
    ("aes_cbc::Decipher::new", ([Sec], decipher));
    ("aes_cbc::Decipher::init", ([decipher; Sec], result Pub ["aes::AESError::InvalidKeySize"]));
    ("aes_cbc::Decipher::write", ([decipher; Sec],
      Con [("Ok", [Sec]);
           ("Err", [Con [("aes_cbc::DecipherError::AES", [Con [("aes::AESError::NotInitialized", [])]])]])]))])%list.
Lemma cbc_accepted : check_all indices_and_branches cbc_sigs constants functions = true.
Proof. vm_compute. reflexivity. Qed.

(** Everything that making an object and a history of calls on it show, up to the
    first call that does not return.  A call is a function and its arguments after
    the object. *)
Fixpoint history (T : target) (fuel : nat) (calls : list (string * list val)) (self : val) : list event :=
  match calls with
  | [] => []
  | (f, args) :: cs =>
      let (t, x) := observe T fuel f (self :: args) in
      (t ++ match x with
            | Ret (_, Some self' :: _) => history T fuel cs self'
            | _ => []
            end)%list
  end.
Definition life (T : target) (fuel : nat) (new : string) (args : list val) (calls : list (string * list val))
  : list event :=
  let (t, x) := observe T fuel new args in
  (t ++ match x with Ret (self, _) => history T fuel calls self | _ => [] end)%list.

Definition calls_rel (o : lab) (c c' : string * list val) : Prop :=
  fst c = fst c' /\ exists ins l, lookup (fst c) cbc_sigs = Some (o :: ins, l) /\ rels ins (snd c) (snd c').
Lemma history_rel T n o calls calls' : Forall2 (calls_rel o) calls calls' -> forall self self', rel o self self' ->
  history T n calls self = history T n calls' self' \/
  parts indices_and_branches (history T n calls self) (history T n calls' self').
Proof.
  induction 1 as [|[f a] [f' a'] cs cs' [E [ins [l [F R]]]] _ IH]; intros self self' H; cbn [history]; [left; reflexivity|].
  cbn [fst snd] in *. subst f'.
  pose proof (check_all_sound _ _ _ _ cbc_accepted T n f _ _ F (self :: a) (self' :: a')) as K.
  specialize (K (s_cons _ _ _ _ _ _ H R)).
  change (observe_in T constants functions n) with (observe T n) in K.
  destruct (observe T n f (self :: a)) as [t x], (observe T n f (self' :: a')) as [t' x'].
  destruct K as [[K1 K2]|D]; cbn [fst snd] in *; [|right; apply parts_before, D]. subst t'.
  destruct x as [[y ws]| |], x' as [[y' ws']| |]; try contradiction; try (left; reflexivity).
  destruct K2 as [_ O]. cbn [snd] in O. inv O; [left; reflexivity|].
  match goal with X : rel o ?u ?w |- _ => destruct (IH u w X) as [G|G] end;
    [left; rewrite G; reflexivity|right; apply parts_after, G].
Qed.
Lemma life_rel T n new ins o args args' calls calls' : lookup new cbc_sigs = Some (ins, o) -> rels ins args args' ->
  Forall2 (calls_rel o) calls calls' ->
  let t := life T n new args calls in
  let t' := life T n new args' calls' in
  (t = t' \/ access_differs t t') /\ (accesses t = accesses t' -> t = t').
Proof.
  intros F R H t t'.
  assert (K : t = t' \/ parts indices_and_branches t t').
  { unfold t, t', life. pose proof (check_all_sound _ _ _ _ cbc_accepted T n new _ _ F args args' R) as K.
    change (observe_in T constants functions n) with (observe T n) in K.
    destruct (observe T n new args) as [u x], (observe T n new args') as [u' x'].
    destruct K as [[K1 K2]|D]; cbn [fst snd] in *; [|right; apply parts_before, D]. subst u'.
    destruct x as [[y ws]| |], x' as [[y' ws']| |]; try contradiction; try (left; reflexivity).
    destruct K2 as [K2 _]. cbn [fst] in K2. destruct (history_rel T n o _ _ H y y' K2) as [G|G];
      [left; rewrite G; reflexivity|right; apply parts_after, G]. }
  split.
  - destruct K as [K|K]; [left; exact K|right]. apply parts_access, K.
  - intros E. destruct K as [K|K]; [exact K|]. apply parts_filter in K. exfalso. apply K. rewrite !of_accesses. exact E.
Qed.

(** A history of calls on a [Cipher]. *)
Inductive cipher_call : Type := Init (key : list N) | Write (data : list N) | Flush.
Definition cipher_name (c : cipher_call) : string * list val :=
  match c with
  | Init k => ("aes_cbc::Cipher::init", [VNums U8 k])
  | Write d => ("aes_cbc::Cipher::write", [VNums U8 d])
  | Flush => ("aes_cbc::Cipher::flush", [])
  end.
Definition alike_calls (c c' : cipher_call) : Prop :=
  match c, c' with
  | Init d, Init d' | Write d, Write d' => List.length d = List.length d'
  | Flush, Flush => True
  | _, _ => False
  end.

(** Encrypting in CBC mode: a history of keys, writes and flushes shows the lengths,
    and what the indices and branches show; nothing else of the iv, the keys and
    the data. *)
Theorem C111_cipher : forall T fuel iv iv' calls calls', List.length iv = List.length iv' ->
  Forall2 alike_calls calls calls' ->
  let t := life T fuel "aes_cbc::Cipher::new" [VNums U8 iv] (map cipher_name calls) in
  let t' := life T fuel "aes_cbc::Cipher::new" [VNums U8 iv'] (map cipher_name calls') in
  (t = t' \/ access_differs t t') /\ (accesses t = accesses t' -> t = t').
Proof.
  intros T n iv iv' calls calls' E H. apply (life_rel T n _ [Sec] cipher); [reflexivity| |].
  - constructor; [apply bytes_rel, E|constructor].
  - induction H as [|c c' cs cs' Hc _ IH]; cbn [map]; constructor; [|exact IH].
    destruct c, c'; try contradiction; (split; [reflexivity|]); eexists _, _; (split; [reflexivity|]);
      repeat (constructor; try apply bytes_rel, Hc).
Qed.
Print Assumptions C111_cipher.

(** Decrypting, for histories of keys ([true]) and writes ([false]). *)
Definition decipher_name (c : bool * list N) : string * list val :=
  (if fst c then "aes_cbc::Decipher::init" else "aes_cbc::Decipher::write", [VNums U8 (snd c)]).
Theorem C111_decipher : forall T fuel iv iv' calls calls', List.length iv = List.length iv' ->
  Forall2 (fun c c' : bool * list N => fst c = fst c' /\ List.length (snd c) = List.length (snd c')) calls calls' ->
  let t := life T fuel "aes_cbc::Decipher::new" [VNums U8 iv] (map decipher_name calls) in
  let t' := life T fuel "aes_cbc::Decipher::new" [VNums U8 iv'] (map decipher_name calls') in
  (t = t' \/ access_differs t t') /\ (accesses t = accesses t' -> t = t').
Proof.
  intros T n iv iv' calls calls' E H. apply (life_rel T n _ [Sec] decipher); [reflexivity| |].
  - constructor; [apply bytes_rel, E|constructor].
  - induction H as [|[b d] [b' d'] cs cs' [Hb Hc] _ IH]; cbn [map]; constructor; [|exact IH].
    cbn [fst snd] in *. subst b'. destruct b; (split; [reflexivity|]); eexists _, _; (split; [reflexivity|]);
      repeat (constructor; try apply bytes_rel, Hc).
Qed.
Print Assumptions C111_decipher.

(** The number that is divided does show something: the mixing of two pairs of
    blocks, with [n = 1], where the text divides by [n] what it reads from the
    mixed blocks. *)
Definition zero_and (b : N) : list val :=
  [VStruct "scrypt::Scrypt" [("r", VInt Usize 1); ("n", VInt Usize 1); ("p", VInt Usize 1)];
   VSeq [VNums U8 (repeat 0 64); VNums U8 (repeat b 64)]].
Theorem C111_scrypt_shows_nothing_refuted : exists T fuel b b',
  divisions (fst (observe T fuel "scrypt::Scrypt::ro_mix" (zero_and b)))
  = [Divide 0 2; Divide 1 2; Divide 0 1; Divide 0 2; Divide 1 2] /\
  divisions (fst (observe T fuel "scrypt::Scrypt::ro_mix" (zero_and b')))
  = [Divide 0 2; Divide 1 2; Divide 15804025985689898445 1; Divide 0 2; Divide 1 2].
Proof. exists (mkTarget W64 true), 10%nat, 0, 1. vm_compute. split; reflexivity. Qed.
Print Assumptions C111_scrypt_shows_nothing_refuted.

(** A word that is looked up in the table, and the key expansion of two words of
    key: a division by the number of words, and the two sides of [&&], of which
    only the first is evaluated. *)
Example C111_example_aes :
  let T := mkTarget W64 true in
  fst (observe T 1 "aes::sub_word" [VInt U32 0x01020304]) = [At 1; At 2; At 3; At 4] /\
  fst (observe T 1 "aes::AESDecrypt::lookup_sbox" [VInt U8 200]) = [At 200] /\
  fst (observe T 9 "aes::expand_key" [VNums U8 [0; 0; 0; 0; 1; 2; 3; 4]; VInt Usize 0])
  = [Std "len" 8; Divide 8 4; Fill 4;
     Branch true; At 0; At 1; At 2; At 3; Std "push" 0;
     Branch true; At 4; At 5; At 6; At 7; Std "push" 1; Branch false;
     Branch true; At 1; Divide 2 2; Branch true; Call "aes::rot_word"; Call "aes::sub_word";
     At 2; At 3; At 4; At 1; Divide 2 2; At 0; At 0; Std "push" 2;
     Branch true; At 2; Divide 3 2; Branch false; Branch false; Branch false; At 1; Std "push" 3;
     Branch false].
Proof. cbv zeta. vm_compute. auto. Qed.
(** Two objects: the records of encrypting a block differ first in an index. *)
Example C111_example_block :
  let T := mkTarget W64 true in
  let t b := fst (observe T 9 "aes::AES::encrypt" [aes_object 0 (Some [0; 0; 0; 0]); VNums U8 (b :: repeat 0 15)]) in
  accesses (t 0) <> accesses (t 1) /\ access_differs (t 0) (t 1).
Proof.
  intros T t. assert (A : accesses (t 0) <> accesses (t 1)) by (vm_compute; discriminate). split; [exact A|].
  destruct (C111_aes_block "aes::AES::encrypt" (or_introl eq_refl) T 9 0 (Some [0; 0; 0; 0]) (Some [0; 0; 0; 0])
    (0 :: repeat 0 15) (1 :: repeat 0 15) eq_refl eq_refl) as [[E|D] _]; [|exact D].
  exfalso. apply A. exact (f_equal accesses E).
Qed.

Lemma nth_apart (u u' : list event) k : (nth k u (Fill 0), nth k u' (Fill 0)) = (At 0, At 3) -> u <> u'.
Proof. intros E ->. destruct (nth k u' (Fill 0)); congruence. Qed.
(** A key of a wrong length and a byte, given to a new [Cipher]; and a block that is
    encrypted, where the record shows the data. *)
Example C111_example_cbc :
  let T := mkTarget W64 true in
  let t calls := life T 90 "aes_cbc::Cipher::new" [VNums U8 (repeat 0 16)] (map cipher_name calls) in
  t [Init [1; 2; 3]; Write [7]]
  = [Call "aes::AES::new"; Call "pkcs7::Pad::new"; Fill 32;
     Call "aes::AES::init"; Std "len" 3; Arm 3; Branch false;
     Call "pkcs7::Pad::write"; Times 1; Std "push" 0; Std "len" 1; Branch true; Arm 0] /\
  (let '(u, u') := (t [Init (repeat 1 16); Write (repeat 1 16)], t [Init (repeat 1 16); Write (repeat 2 16)]) in
   len u = 5023 /\ (nth 503 u (Fill 0), nth 503 u' (Fill 0)) = (At 0, At 3)) /\
  access_differs (t [Init (repeat 1 16); Write (repeat 1 16)]) (t [Init (repeat 1 16); Write (repeat 2 16)]).
Proof.
  intros T t. split; [vm_compute; reflexivity|].
  assert (A : len (t [Init (repeat 1 16); Write (repeat 1 16)]) = 5023 /\
    (nth 503 (t [Init (repeat 1 16); Write (repeat 1 16)]) (Fill 0),
     nth 503 (t [Init (repeat 1 16); Write (repeat 2 16)]) (Fill 0)) = (At 0, At 3)) by (vm_compute; split; reflexivity).
  split; [exact A|]. destruct A as [_ A].
  destruct (C111_cipher T 90 (repeat 0 16) (repeat 0 16) [Init (repeat 1 16); Write (repeat 1 16)]
    [Init (repeat 1 16); Write (repeat 2 16)] eq_refl) as [[E|D] _]; [repeat constructor| |exact D].
  exfalso. exact (nth_apart _ _ _ A E).
Qed.

(** The first steps of deriving a key; the fuel ends where PBKDF2 is called. *)
Example C111_example_derive :
  let T := mkTarget W64 true in
  let self n := VStruct "scrypt::Scrypt" [("r", VInt Usize 1); ("n", VInt Usize n); ("p", VInt Usize 1)] in
  fst (observe T 1 "scrypt::Scrypt::derive" [self 4; VNums U8 [7]; VNums U8 [9]; VNums U8 [0; 0]])
  = [Branch false; Branch false; Branch false; Branch false; Fill 128; Call "pbkdf2::pbkdf2_sha256"] /\
  observe T 1 "scrypt::Scrypt::derive" [self 6; VNums U8 [7]; VNums U8 [9]; VNums U8 [0; 0]]
  = ([Branch false; Branch false; Branch true],
     Ret (VCon "Err" [VCon "scrypt::ScryptError::NIsNotAPowerOfTwo" []], [None; None; None; Some (VNums U8 [0; 0])])).
Proof. cbv zeta. vm_compute. split; reflexivity. Qed.
