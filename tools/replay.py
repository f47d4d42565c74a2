#!/usr/bin/env python3
"""Run the four examples and tests of /repo that are too long for Tests.v on the
extracted model (OCaml with Zarith), outside the build.  About 12 minutes.

Usage, after building rocq/:  python3 tools/replay.py
"""
import os, re, subprocess, tempfile

ROOT = os.path.join(os.path.dirname(os.path.abspath(__file__)), "..")
EXT = r'''
From Coq Require Import NArith List Extraction ExtrOcamlBasic ExtrOcamlNatInt.
From Verif Require Import Rust.
From Verif.Model Require Import Pbkdf2 Scrypt.
Extract Inductive positive => "Z.t"
  ["(fun p -> Z.succ (Z.shift_left p 1))" "(fun p -> Z.shift_left p 1)" "Z.one"]
  "(fun fI fO fH n -> if Z.equal n Z.one then fH () else if Z.is_odd n then fI (Z.shift_right n 1) else fO (Z.shift_right n 1))".
Extract Inductive N => "Z.t" ["Z.zero" ""] "(fun f0 fp n -> if Z.sign n = 0 then f0 () else fp n)".
Extract Constant N.add => "Z.add".
Extract Constant N.mul => "Z.mul".
Extract Constant N.sub => "(fun a b -> Z.max Z.zero (Z.sub a b))".
Extract Constant N.succ => "Z.succ".
Extract Constant N.pred => "(fun a -> Z.max Z.zero (Z.pred a))".
Extract Constant N.div => "(fun a b -> if Z.sign b = 0 then Z.zero else Z.div a b)".
Extract Constant N.modulo => "(fun a b -> if Z.sign b = 0 then a else Z.rem a b)".
Extract Constant N.eqb => "Z.equal".
Extract Constant N.leb => "Z.leq".
Extract Constant N.ltb => "Z.lt".
Extract Constant N.min => "Z.min".
Extract Constant N.max => "Z.max".
Extract Constant N.land => "Z.logand".
Extract Constant N.lor => "Z.logor".
Extract Constant N.lxor => "Z.logxor".
Extract Constant N.shiftl => "(fun a b -> Z.shift_left a (Z.to_int b))".
Extract Constant N.shiftr => "(fun a b -> Z.shift_right a (Z.to_int b))".
Extract Constant N.pow => "(fun a b -> Z.pow a (Z.to_int b))".
Extract Constant N.to_nat => "Z.to_int".
Extract Constant N.of_nat => "Z.of_int".
Extraction "model.ml" pbkdf2_sha256 scrypt_derive scrypt_new.
'''
DRV = r'''
open Model
let b s = List.init (String.length s) (fun i -> Z.of_int (Char.code s.[i]))
let t = {width = W64; overflow_checks = true}
let hex l = String.concat "" (List.map (fun z -> Printf.sprintf "%02x" (Z.to_int z)) l)
let zs n = List.init n (fun _ -> Z.zero)
let p pass salt c n =
  match pbkdf2_sha256 t (b pass) (b salt) (Z.of_int c) (zs n) with Ret o -> hex o | _ -> "no result"
let s r n q pass salt l =
  match scrypt_derive t (scrypt_new (Z.of_int r) (Z.of_int n) (Z.of_int q)) (b pass) (b salt) (zs l) with
  | Ret (Ok (), o) -> hex o | _ -> "no result"
let () = print_endline (match Sys.argv.(1) with
  | "0" -> p "password" "salt" 100 8
  | "1" -> s 1 128 1 "passphrase" "salt" 8
  | "2" -> s 8 1024 16 "password" "NaCl" 64
  | "3" -> s 8 16384 1 "pleaseletmein" "SodiumChloride" 64
  | _ -> p "Password" "NaCl" 80000 64)
'''
# src/pbkdf2.rs:25, src/scrypt.rs:52, src/scrypt.rs:420, src/scrypt.rs:439, src/pbkdf2.rs:141
CASES = [("pbkdf2.rs", 'b"salt", 100'), ("scrypt.rs", "Scrypt::new(1, 128, 1)"),
         ("scrypt.rs", "Scrypt::new(8, 1024, 16)"), ("scrypt.rs", "Scrypt::new(8, 16384, 1)"),
         ("pbkdf2.rs", 'b"NaCl", 80000')]

def expected(name, mark):
    text = open("/repo/src/" + name).read()
    text = text[text.index(mark):]
    body = re.search(r"vec!\[(.*?)\]", text, re.S).group(1)
    return "".join("%02x" % int(x, 0) for x in re.findall(r"0x[0-9a-f]+|\b\d+\b", body))

with tempfile.TemporaryDirectory() as d:
    open(os.path.join(d, "ext.v"), "w").write(EXT)
    open(os.path.join(d, "drv.ml"), "w").write(DRV)
    run = lambda *c: subprocess.run(c, cwd=d, check=True, capture_output=True, text=True).stdout
    run("coqc", "-Q", os.path.join(ROOT, "rocq", "theories"), "Verif", "ext.v")
    os.remove(os.path.join(d, "model.mli"))
    run("ocamlfind", "ocamlopt", "-package", "zarith", "-linkpkg", "model.ml", "drv.ml", "-o", "drv")
    for i, (name, mark) in enumerate(CASES):
        got = run("./drv", str(i)).strip()
        print(name, mark, "ok" if got == expected(name, mark) else "MISMATCH " + got, flush=True)
