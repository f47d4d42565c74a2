(** C110: what a run of the text shows of the secrets it works on. *)
From Coq Require Import NArith List String Bool Lia.
From Verif Require Import Rust.
From Verif.Source Require Import Syntax Interp Tree Calls Observe.
From Verif.Spec Require Hasher.
From Verif.Proofs Require SourceObserve.
From Verif.Proofs Require Import SourceFlow.
Import ListNotations.
Local Open Scope string_scope.
Local Open Scope N_scope.

(** Keeping a record changes nothing that is computed, for every program. *)
Theorem C110_record_only : forall T constants functions fuel f args,
  snd (observe_in T constants functions fuel f args) = interp T constants functions fuel f args.
Proof. intros T cs fs n f vs. apply Proofs.SourceObserve.observe_in_erases. Qed.
Print Assumptions C110_record_only.

(** For every program: two calls of a function that the check accepts, with
    arguments that differ in secret data only, have the same record, and both
    return, both panic or both run out of fuel. *)
Definition same_end {A : Type} (x y : res A) : Prop :=
  match x, y with
  | Ret _, Ret _ | Panic, Panic | Diverge, Diverge => True
  | _, _ => False
  end.
Theorem C110_check_is_right : forall sigs constants functions, check_all nothing sigs constants functions = true ->
  forall f ins o, lookup f sigs = Some (ins, o) ->
  forall T fuel args args', rels ins args args' ->
  fst (observe_in T constants functions fuel f args) = fst (observe_in T constants functions fuel f args') /\
  same_end (interp T constants functions fuel f args) (interp T constants functions fuel f args').
Proof.
  intros sigs cs fs A f ins o F T n vs vs' H.
  destruct (check_nothing_sound sigs cs fs A T n f ins o F vs vs' H) as [E1 E2].
  split; [exact E1|]. rewrite !Proofs.SourceObserve.observe_in_erases in E2.
  destruct (interp T cs fs n f vs), (interp T cs fs n f vs'); cbn in *; auto.
Qed.
Print Assumptions C110_check_is_right.

(** * /repo *)

(** The bytes in a hash object are secret, the number of bytes seen is not. *)
Definition sha : lab := Rec "sha256::SHA256" [("h", Sec); ("buffer", Sec); ("length", Pub)].
Definition hmac : lab := Rec "hmac::HMac" [("inner", sha); ("outer", sha)].
Definition pad : lab := Rec "pkcs7::Pad" [("block_size", Pub); ("storage", Sec)].
Definition unpad : lab := Rec "pkcs7::Unpad" [("block_size", Pub); ("storage", Sec)].
Definition scrypt : lab := Rec "scrypt::Scrypt" [("r", Pub); ("n", Pub); ("p", Pub)].
(** Whether there is a value is not secret, the value is. *)
Definition maybe : lab := Con [("Some", [Sec]); ("None", [])].
Definition sha_sigs : list (string * (list lab * lab)) :=
  [("sha256::ch", ([Sec; Sec; Sec], Sec));
   ("sha256::maj", ([Sec; Sec; Sec], Sec));
   ("sha256::rotr", ([Sec; Pub], Sec));
   ("sha256::bsig0", ([Sec], Sec));
   ("sha256::bsig1", ([Sec], Sec));
   ("sha256::ssig0", ([Sec], Sec));
   ("sha256::ssig1", ([Sec], Sec));
   ("sha256::fill_block", ([Sec; Sec], Pub));
   ("sha256::write_u64_be", ([Sec; Pub], Pub));
   ("sha256::SHA256::new", ([], sha));
   ("sha256::SHA256::process_block", ([sha; Sec], Pub));
   ("sha256::SHA256::update", ([sha; Sec], Pub));
   ("sha256::SHA256::digest", ([sha], Sec));
   ("sha256::SHA256::default", ([], sha))].
Definition hmac_sigs : list (string * (list lab * lab)) :=
  (sha_sigs ++
   [("hmac::HMac::new", ([Sec], hmac));
    ("hmac::HMac::update", ([hmac; Sec], Pub));
    ("hmac::HMac::digest", ([hmac], Sec))])%list.
Definition pbkdf2_sigs : list (string * (list lab * lab)) :=
  (hmac_sigs ++
   [("pbkdf2::pbkdf2_sha256", ([Sec; Sec; Pub; Sec], Pub))])%list.
Definition salsa_sigs : list (string * (list lab * lab)) :=
  [("salsa20::rotl", ([Sec; Pub], Sec));
   ("salsa20::quarterround", ([Sec; Sec], Pub));
   ("salsa20::rowround", ([Sec; Sec], Pub));
   ("salsa20::columnround", ([Sec; Sec], Pub));
   ("salsa20::doubleround", ([Sec; Sec], Pub));
   ("salsa20::littleendian", ([Sec], Sec));
   ("salsa20::littleendian_inv", ([Sec; Sec], Pub));
   ("salsa20::salsa20", ([Sec; Pub; Sec], Pub))].
Definition mix_sigs : list (string * (list lab * lab)) :=
  (salsa_sigs ++
   [("scrypt::block_xor", ([Sec; Sec], Sec));
    ("scrypt::integerify", ([Sec], Sec));
    ("scrypt::Scrypt::new", ([Pub; Pub; Pub], scrypt));
    ("scrypt::Scrypt::block_mix", ([scrypt; Sec], Sec))])%list.
Definition pad_sigs : list (string * (list lab * lab)) :=
  [("pkcs7::Pad::new", ([Pub], pad));
   ("pkcs7::Pad::write", ([pad; Sec], maybe));
   ("pkcs7::Pad::flush", ([pad], Sec));
   ("pkcs7::Unpad::new", ([Pub], unpad));
   ("pkcs7::Unpad::write", ([unpad; Sec], maybe))].
Definition block_sigs : list (string * (list lab * lab)) :=
  [("aes::rot_word", ([Sec], Sec));
   ("aes::AESEncrypt::shift_rows", ([Sec], Sec));
   ("aes::AESEncrypt::add_round_key", ([Sec; Sec], Pub));
   ("aes::AESDecrypt::shift_rows", ([Sec], Sec));
   ("aes::AESDecrypt::add_round_key", ([Sec; Sec], Pub));
   ("aes::to_block", ([Sec], Sec));
   ("aes::from_block", ([Sec], Sec))].
(** The check accepts each of these lists. *)
Lemma sha_accepted : check_all nothing sha_sigs constants functions = true.
Proof. vm_compute. reflexivity. Qed.
Lemma hmac_accepted : check_all nothing hmac_sigs constants functions = true.
Proof. vm_compute. reflexivity. Qed.
Lemma pbkdf2_accepted : check_all nothing pbkdf2_sigs constants functions = true.
Proof. vm_compute. reflexivity. Qed.
Lemma salsa_accepted : check_all nothing salsa_sigs constants functions = true.
Proof. vm_compute. reflexivity. Qed.
Lemma mix_accepted : check_all nothing mix_sigs constants functions = true.
Proof. vm_compute. reflexivity. Qed.
Lemma pad_accepted : check_all nothing pad_sigs constants functions = true.
Proof. vm_compute. reflexivity. Qed.
Lemma block_accepted : check_all nothing block_sigs constants functions = true.
Proof. vm_compute. reflexivity. Qed.

(** The records of a history of calls on one object, one for each call, up to the
    first call that does not return. *)
Fixpoint watch (T : target) (fuel : nat) (type : string) (calls : list Hasher.call) (self : val)
  : list (list event) :=
  match calls with
  | [] => []
  | c :: cs =>
      let (t, x) := match c with
                    | Hasher.Update d => observe T fuel (type ++ "::update") [self; VNums U8 d]
                    | Hasher.Digest => observe T fuel (type ++ "::digest") [self]
                    end in
      t :: match x with
           | Ret (_, Some self' :: _) => watch T fuel type cs self'
           | _ => []
           end
  end.
Definition watch_life (T : target) (fuel : nat) (type : string) (args : list val) (calls : list Hasher.call)
  : list (list event) :=
  let (t, x) := observe T fuel (type ++ "::new") args in
  t :: match x with Ret (self, _) => watch T fuel type calls self | _ => [] end.

(** Calls that look alike: the same methods, with data of the same lengths. *)
Definition alike (c c' : Hasher.call) : Prop :=
  match c, c' with
  | Hasher.Update d, Hasher.Update d' => List.length d = List.length d'
  | Hasher.Digest, Hasher.Digest => True
  | _, _ => False
  end.

Lemma bytes_rel d d' : List.length d = List.length d' -> rel Sec (VNums U8 d) (VNums U8 d').
Proof. intros E. constructor. constructor. exact E. Qed.

Lemma watch_rel sigs T n type o l : check_all nothing sigs constants functions = true -> lookup (type ++ "::update") sigs = Some ([o; Sec], Pub) ->
  lookup (type ++ "::digest") sigs = Some ([o], l) ->
  forall calls calls' self self', Forall2 alike calls calls' -> rel o self self' ->
  watch T n type calls self = watch T n type calls' self'.
Proof.
  intros accepted U D calls calls' self self' H. revert self self'.
  induction H as [|c c' cs cs' Hc _ IH]; intros self self' K; cbn [watch]; [reflexivity|].
  destruct c as [d|], c' as [d'|]; try contradiction.
  - assert (A : rels [o; Sec] [self; VNums U8 d] [self'; VNums U8 d'])
      by (constructor; [exact K|]; constructor; [apply bytes_rel, Hc|constructor]).
    destruct (check_nothing_sound _ _ _ accepted T n _ _ _ U _ _ A) as [E1 E2].
    change (observe_in T constants functions n) with (observe T n) in *.
    destruct (observe T n (type ++ "::update") [self; VNums U8 d]) as [t x].
    destruct (observe T n (type ++ "::update") [self'; VNums U8 d']) as [t' x'].
    cbn [fst snd] in *. subst t'. f_equal.
    destruct x as [[y ws]| |], x' as [[y' ws']| |]; try contradiction; try reflexivity.
    destruct E2 as [_ O]. cbn [snd] in O. inv O; [reflexivity|]. apply IH. assumption.
  - assert (A : rels [o] [self] [self']) by (constructor; [exact K|constructor]).
    destruct (check_nothing_sound _ _ _ accepted T n _ _ _ D _ _ A) as [E1 E2].
    change (observe_in T constants functions n) with (observe T n) in *.
    destruct (observe T n (type ++ "::digest") [self]) as [t x].
    destruct (observe T n (type ++ "::digest") [self']) as [t' x'].
    cbn [fst snd] in *. subst t'. f_equal.
    destruct x as [[y ws]| |], x' as [[y' ws']| |]; try contradiction; try reflexivity.
    destruct E2 as [_ O]. cbn [snd] in O. inv O; [reflexivity|]. apply IH. assumption.
Qed.
Lemma watch_life_rel sigs T n type ins o l args args' : check_all nothing sigs constants functions = true ->
  lookup (type ++ "::new") sigs = Some (ins, o) ->
  lookup (type ++ "::update") sigs = Some ([o; Sec], Pub) ->
  lookup (type ++ "::digest") sigs = Some ([o], l) -> rels ins args args' ->
  forall calls calls', Forall2 alike calls calls' ->
  watch_life T n type args calls = watch_life T n type args' calls'.
Proof.
  intros accepted N U D A calls calls' H. unfold watch_life.
  destruct (check_nothing_sound _ _ _ accepted T n _ _ _ N _ _ A) as [E1 E2].
  change (observe_in T constants functions n) with (observe T n) in *.
  destruct (observe T n (type ++ "::new") args) as [t x].
  destruct (observe T n (type ++ "::new") args') as [t' x'].
  cbn [fst snd] in *. subst t'. f_equal.
  destruct x as [[y ws]| |], x' as [[y' ws']| |]; try contradiction; try reflexivity.
  destruct E2 as [K _]. exact (watch_rel sigs T n type o l accepted U D _ _ _ _ H K).
Qed.

(** SHA-256: any history of updates and digests shows the lengths of the data, not
    the data. *)
Theorem C110_sha256 : forall T fuel calls calls', Forall2 alike calls calls' ->
  watch_life T fuel "sha256::SHA256" [] calls = watch_life T fuel "sha256::SHA256" [] calls'.
Proof.
  intros T n calls calls'. eapply watch_life_rel; [exact sha_accepted|reflexivity|reflexivity|reflexivity|]. constructor.
Qed.
Print Assumptions C110_sha256.

(** HMAC: it shows the length of the key and of the data. *)
Theorem C110_hmac : forall T fuel key key' calls calls', List.length key = List.length key' ->
  Forall2 alike calls calls' ->
  watch_life T fuel "hmac::HMac" [VNums U8 key] calls = watch_life T fuel "hmac::HMac" [VNums U8 key'] calls'.
Proof.
  intros T n key key' calls calls' E. eapply watch_life_rel; [exact hmac_accepted|reflexivity|reflexivity|reflexivity|].
  constructor; [apply bytes_rel, E|constructor].
Qed.
Print Assumptions C110_hmac.

(** PBKDF2: neither password nor salt, only their lengths, the number of
    iterations and the length of the output; whether it panics is no different. *)
Theorem C110_pbkdf2 : forall T fuel password password' salt salt' c out out',
  List.length password = List.length password' -> List.length salt = List.length salt' ->
  List.length out = List.length out' ->
  let args := [VNums U8 password; VNums U8 salt; VInt Usize c; VNums U8 out] in
  let args' := [VNums U8 password'; VNums U8 salt'; VInt Usize c; VNums U8 out'] in
  fst (observe T fuel "pbkdf2::pbkdf2_sha256" args) = fst (observe T fuel "pbkdf2::pbkdf2_sha256" args') /\
  same_end (run T fuel "pbkdf2::pbkdf2_sha256" args) (run T fuel "pbkdf2::pbkdf2_sha256" args').
Proof.
  intros T n p p' s s' c o o' E1 E2 E3 args args'.
  eapply (C110_check_is_right _ _ _ pbkdf2_accepted); [reflexivity|].
  constructor; [apply bytes_rel, E1|]. constructor; [apply bytes_rel, E2|].
  constructor; [constructor; constructor|]. constructor; [apply bytes_rel, E3|constructor].
Qed.
Print Assumptions C110_pbkdf2.

(** Salsa20: only the number of rounds and the lengths. *)
Theorem C110_salsa20 : forall T fuel input input' rounds output output',
  List.length input = List.length input' -> List.length output = List.length output' ->
  let args := [VNums U8 input; VInt Usize rounds; VNums U8 output] in
  let args' := [VNums U8 input'; VInt Usize rounds; VNums U8 output'] in
  fst (observe T fuel "salsa20::salsa20" args) = fst (observe T fuel "salsa20::salsa20" args') /\
  same_end (run T fuel "salsa20::salsa20" args) (run T fuel "salsa20::salsa20" args').
Proof.
  intros T n i i' r o o' E1 E2 args args'.
  eapply (C110_check_is_right _ _ _ salsa_accepted); [reflexivity|].
  constructor; [apply bytes_rel, E1|]. constructor; [constructor; constructor|].
  constructor; [apply bytes_rel, E2|constructor].
Qed.
Print Assumptions C110_salsa20.

(** The mixing step of scrypt: [r], and the number and the lengths of the blocks. *)
Theorem C110_block_mix : forall T fuel r n p blocks blocks',
  Forall2 (fun b b' : list N => List.length b = List.length b') blocks blocks' ->
  let self := VStruct "scrypt::Scrypt" [("r", VInt Usize r); ("n", VInt Usize n); ("p", VInt Usize p)] in
  let args := [self; VSeq (map (VNums U8) blocks)] in
  let args' := [self; VSeq (map (VNums U8) blocks')] in
  fst (observe T fuel "scrypt::Scrypt::block_mix" args) = fst (observe T fuel "scrypt::Scrypt::block_mix" args') /\
  same_end (run T fuel "scrypt::Scrypt::block_mix" args) (run T fuel "scrypt::Scrypt::block_mix" args').
Proof.
  intros T k r n p b b' E self args args'.
  eapply (C110_check_is_right _ _ _ mix_accepted); [reflexivity|].
  constructor; [repeat (constructor; [repeat constructor|] || constructor)|].
  constructor; [|constructor]. constructor. constructor. induction E; cbn [map]; constructor; [constructor|]; assumption.
Qed.
Print Assumptions C110_block_mix.

(** Adding a padding: any history of writes ([Some data]) and flushes ([None])
    shows the block size and the lengths of the data. *)
Fixpoint watch_pad (T : target) (fuel : nat) (calls : list (option (list N))) (self : val) : list (list event) :=
  match calls with
  | [] => []
  | c :: cs =>
      let (t, x) := match c with
                    | Some d => observe T fuel "pkcs7::Pad::write" [self; VNums U8 d]
                    | None => observe T fuel "pkcs7::Pad::flush" [self]
                    end in
      t :: match x with
           | Ret (_, Some self' :: _) => watch_pad T fuel cs self'
           | _ => []
           end
  end.
Theorem C110_pad : forall T fuel block_size calls calls',
  Forall2 (fun c c' => match c, c' with
                       | Some d, Some d' => List.length d = List.length d'
                       | None, None => True
                       | _, _ => False
                       end) calls calls' ->
  let watch_all calls :=
    match run T fuel "pkcs7::Pad::new" [VInt Usize block_size] with
    | Ret (self, _) => watch_pad T fuel calls self
    | _ => []
    end in
  watch_all calls = watch_all calls'.
Proof.
  intros T n k calls calls' H watch_all. unfold watch_all, run. rewrite <- C110_record_only.
  assert (A : rels [Pub] [VInt Usize k] [VInt Usize k]) by (constructor; [constructor; constructor|constructor]).
  destruct (check_nothing_sound _ _ _ pad_accepted T n "pkcs7::Pad::new" [Pub] pad eq_refl _ _ A) as [_ E].
  destruct (snd _) as [[self ws]| |]; try reflexivity. destruct E as [K _]. cbn [fst] in K. clear A ws.
  enough (J : forall self', rel pad self self' -> watch_pad T n calls self = watch_pad T n calls' self') by (apply J, K).
  clear K. revert self.
  induction H as [|c c' cs cs' Hc _ IH]; intros self self' K; cbn [watch_pad]; [reflexivity|].
  destruct c as [d|], c' as [d'|]; try contradiction.
  - assert (A : rels [pad; Sec] [self; VNums U8 d] [self'; VNums U8 d'])
      by (constructor; [exact K|]; constructor; [apply bytes_rel, Hc|constructor]).
    destruct (check_nothing_sound _ _ _ pad_accepted T n "pkcs7::Pad::write" [pad; Sec] maybe eq_refl _ _ A) as [E1 E2].
    change (observe_in T constants functions n) with (observe T n) in *.
    destruct (observe T n "pkcs7::Pad::write" [self; VNums U8 d]) as [t x].
    destruct (observe T n "pkcs7::Pad::write" [self'; VNums U8 d']) as [t' x'].
    cbn [fst snd] in *. subst t'. f_equal.
    destruct x as [[y ws]| |], x' as [[y' ws']| |]; try contradiction; try reflexivity.
    destruct E2 as [_ O]. cbn [snd] in O. inv O; [reflexivity|]. apply IH. assumption.
  - assert (A : rels [pad] [self] [self']) by (constructor; [exact K|constructor]).
    destruct (check_nothing_sound _ _ _ pad_accepted T n "pkcs7::Pad::flush" [pad] Sec eq_refl _ _ A) as [E1 E2].
    change (observe_in T constants functions n) with (observe T n) in *.
    destruct (observe T n "pkcs7::Pad::flush" [self]) as [t x].
    destruct (observe T n "pkcs7::Pad::flush" [self']) as [t' x'].
    cbn [fst snd] in *. subst t'. f_equal.
    destruct x as [[y ws]| |], x' as [[y' ws']| |]; try contradiction; try reflexivity.
    destruct E2 as [_ O]. cbn [snd] in O. inv O; [reflexivity|]. apply IH. assumption.
Qed.
Print Assumptions C110_pad.

(** The parts of AES that do not use the tables and do not multiply. *)
Theorem C110_aes_parts : forall f, In f ["aes::AESEncrypt::shift_rows"; "aes::AESDecrypt::shift_rows";
    "aes::to_block"; "aes::from_block"; "aes::rot_word"] ->
  forall T fuel arg arg', shape arg arg' ->
  fst (observe T fuel f [arg]) = fst (observe T fuel f [arg']) /\
  same_end (run T fuel f [arg]) (run T fuel f [arg']).
Proof.
  intros f I T n a a' S. assert (R : rels [Sec] [a] [a']) by (constructor; [constructor; exact S|constructor]).
  repeat (destruct I as [I|I]; [subst f; eapply (C110_check_is_right _ _ _ block_accepted); [reflexivity|exact R]|]).
  destruct I.
Qed.
Print Assumptions C110_aes_parts.

(** AES is different: its text looks words of the key up in a table, and the
    multiplication of a byte of the state branches on its highest bit.  There the
    record depends on the secrets themselves; so does that of removing a padding,
    on the padding. *)
Theorem C110_others_refuted :
  (exists key key', List.length key = 16%nat /\ List.length key' = 16%nat /\ forall T,
    fst (observe T 60 "aes::expand_key" [VNums U8 key; VInt Usize 10]) <>
    fst (observe T 60 "aes::expand_key" [VNums U8 key'; VInt Usize 10])) /\
  (exists b b', forall T, fst (observe T 1 "aes::double" [VInt U8 b]) <> fst (observe T 1 "aes::double" [VInt U8 b'])) /\
  (exists block block', List.length block = List.length block' /\ forall T,
    let unpad b := VStruct "pkcs7::Unpad" [("block_size", VInt Usize 4); ("storage", VNums U8 b)] in
    fst (observe T 1 "pkcs7::Unpad::flush" [unpad block]) <> fst (observe T 1 "pkcs7::Unpad::flush" [unpad block'])).
Proof.
  split; [|split].
  - exists (repeat 0 16), (repeat 1 16). split; [reflexivity|split; [reflexivity|]].
    intros [[] []]; vm_compute; discriminate.
  - exists 0, 128. intros [[] []]; vm_compute; discriminate.
  - exists [1; 2; 3; 1], [1; 2; 2; 2]. split; [reflexivity|]. intros [[] []]; vm_compute; discriminate.
Qed.
Print Assumptions C110_others_refuted.

(** Two bytes given to a new hash object: where they are put, and how often the
    number of bytes seen is divided by the block size. *)
Example C110_example :
  watch_life (mkTarget W64 true) 2 "sha256::SHA256" [] [Hasher.Update [7; 9]]
  = [[Fill 64];
     [Divide 64 4; Fill 16; Times 2; Divide 0 64; At 0; Divide 1 64; Branch true;
      Divide 1 64; At 1; Divide 2 64; Branch true]] /\
  watch_life (mkTarget W64 true) 2 "sha256::SHA256" [] [Hasher.Update [7; 9]]
  = watch_life (mkTarget W64 true) 2 "sha256::SHA256" [] [Hasher.Update [255; 0]] /\
  watch_life (mkTarget W64 true) 2 "sha256::SHA256" [] [Hasher.Update [7; 9]]
  <> watch_life (mkTarget W64 true) 2 "sha256::SHA256" [] [Hasher.Update [7]].
Proof.
  split; [vm_compute; reflexivity|split; [|vm_compute; discriminate]].
  apply C110_sha256. constructor; [reflexivity|constructor].
Qed.

(** Records of calls of single functions: calls, lengths, slices, table lookups, and
    the turns of a [while]. *)
Example C110_example_events :
  let T := mkTarget W64 true in
  fst (observe T 2 "sha256::bsig0" [VInt U32 1])
  = [Call "sha256::rotr"; Call "sha256::rotr"; Call "sha256::rotr"] /\
  fst (observe T 1 "sha256::fill_block" [VNums U8 [1; 2; 3; 4]; VNums U32 [0]])
  = [Std "len" 1; Times 1; At 0; At 1; At 2; At 3; At 0] /\
  fst (observe T 1 "pkcs7::Unpad::flush"
    [VStruct "pkcs7::Unpad" [("block_size", VInt Usize 4); ("storage", VNums U8 [1; 2; 2; 2])]])
  = [Std "len" 4; Branch false; Std "len" 4; At 3; Branch false; Part 2 4; Std "iter" 2; Times 2;
     Branch false; Part 0 2; Std "to_vec" 2; Std "clear" 4] /\
  fst (observe T 4 "aes::mul" [VInt U8 200; VInt Usize 2])
  = [Branch true; Branch false; Call "aes::double"; Branch false;
     Branch true; Branch true; Call "aes::double"; Branch false; Branch false] /\
  fst (observe T 2 "pkcs7::Pad::new" [VInt Usize 4]) = [Fill 8] /\
  fst (observe T 1 "scrypt::block_xor" [VNums U8 [1; 2]; VNums U8 [3; 4]])
  = [Std "iter" 2; Std "iter" 2; Std "zip" 2; Times 2; Std "collect" 2] /\
  fst (observe T 1 "scrypt::ScryptError::description" [VCon "scrypt::ScryptError::PIsTooSmall" []])
  = [Arm 3].
Proof. cbv zeta. vm_compute. auto 10. Qed.

(** A padding added to two bytes, with blocks of four. *)
Example C110_example_pad :
  let T := mkTarget W64 true in
  let self := VStruct "pkcs7::Pad" [("block_size", VInt Usize 4); ("storage", VNums U8 [])] in
  watch_pad T 9 [Some [7; 9]; None] self
  = [[Times 2; Std "push" 0; Std "push" 1; Std "len" 2; Branch true];
     [Std "len" 2; Std "len" 2; Branch true; Std "push" 2; Std "len" 3; Branch true; Std "push" 3;
      Std "len" 4; Branch false; Std "clone" 4; Std "clear" 4]] /\
  watch_pad T 9 [Some [7; 9]; None] self = watch_pad T 9 [Some [0; 255]; None] self /\
  watch_pad T 9 [Some [7; 9]; None] self <> watch_pad T 9 [Some [7]; None] self.
Proof. cbv zeta. vm_compute. repeat split; congruence. Qed.
