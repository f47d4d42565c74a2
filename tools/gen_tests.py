#!/usr/bin/env python3
"""Writes rocq/theories/Tests.v: the #[test] functions of /repo/src as Examples about
the model.  Tests whose body is one call of a check function are translated from the
text of /repo; the others are written out below."""
import os, re
SRC = "/repo/src"

class P:
    def __init__(self, s): self.s, self.i = s, 0
    def ws(self):
        while self.i < len(self.s) and self.s[self.i].isspace(): self.i += 1
    def peek(self, t): self.ws(); return self.s.startswith(t, self.i)
    def eat(self, t):
        assert self.peek(t), (t, self.s[self.i:self.i+40]); self.i += len(t)
    def args(self, close):
        out = []
        while not self.peek(close):
            out.append(self.expr())
            if self.peek(","): self.eat(",")
        self.eat(close)
        return out
    def string(self):
        self.eat('"'); out = []
        while self.s[self.i] != '"':
            c = self.s[self.i]
            if c == "\\":
                d = self.s[self.i+1]
                if d == "x": out.append(int(self.s[self.i+2:self.i+4], 16)); self.i += 4
                elif d == "\n":
                    self.i += 2
                    while self.s[self.i].isspace(): self.i += 1
                else: raise Exception(d)
            else: out.append(ord(c)); self.i += 1
        self.i += 1
        return out
    def expr(self):
        if self.peek("&"): self.eat("&"); return self.expr()
        if self.peek("vec!["): self.eat("vec!["); return self.args("]")
        if self.peek("["): self.eat("["); return self.args("]")
        if self.peek('b"'): self.eat("b"); return self.string()
        if self.peek('"'): return self.string()
        self.ws()
        m = re.compile(r"0x[0-9a-fA-F_]+|[0-9_]+").match(self.s, self.i)
        assert m, self.s[self.i:self.i+60]
        self.i = m.end()
        return int(m.group().replace("_", ""), 0)

def coq(v):
    if isinstance(v, int): return str(v)
    return "[" + "; ".join(coq(x) for x in v) + "]"
def wrap(s, ind):
    out, line = [], ""
    for w in s.split(" "):
        if len(line) + len(w) + 1 > 96 - ind: out.append(line); line = w
        else: line = (line + " " + w) if line else w
    out.append(line)
    return ("\n" + " " * ind).join(out)

def tests(f):
    s = open(os.path.join(SRC, f + ".rs")).read()
    res = []
    for m in re.finditer(r"#\[test\]\s*fn (\w+)\(\) \{\n(.*?)\n    \}\n", s, re.S):
        line = s[:m.start(1)].count("\n") + 1
        res.append((m.group(1), line, m.group(2)))
    return res

# check functions of the test modules, and how a call reads here
CHECK = {
 ("sha256", "check"): "sha256_check {0} {1}",
 ("hmac", "check"): "hmac_check {0} {1} {2}",
 ("salsa20", "quarter_check"): "quarter_check {0} {1}",
 ("salsa20", "column_check"): "column_check {0} {1}",
 ("salsa20", "double_check"): "double_check {0} {1}",
 ("salsa20", "row_check"): "row_check {0} {1}",
 ("salsa20", "check"): "salsa20_check {0} {1} {2}",
 ("aes", "check_cipher_vector"): "check_cipher_vector {0} {1} {2}",
 ("aes_cbc", "check"): "aes_cbc_check {0} {1} {2} {3}",
 ("scrypt", "check_mix"): "check_mix {0} {1} {2}",
 ("scrypt", "check_ro_mix"): "check_ro_mix {0} {1} {2} {3}",
}
TOO_LONG = {("pbkdf2", "it_should_compute_digest_for_vec1"): "80000 iterations",
 ("scrypt", "it_should_compute_scrypt_for_vec1"): "N = 1024, r = 8, p = 16",
 ("scrypt", "it_should_compute_scrypt_for_vec2"): "N = 16384, r = 8",
 ("scrypt", "it_should_compute_scrypt_for_vec3"): "N = 1048576, r = 8"}

def b(s): return coq([ord(c) for c in s] if isinstance(s, str) else s)
def arr(body, k=0):
    """the k-th array literal of the body"""
    pos = [m.start() for m in re.finditer(r"(?<![\w;])(vec!)?\[\s*0x", body)]
    p = P(body); p.i = pos[k]
    return p.expr()

def hand(f, name, body):
    if f == "pbkdf2":
        return "pbkdf2_check %s %s 1 %s" % (b("passwd"), b("salt"), coq(arr(body)))
    if f == "scrypt":
        return "scrypt_check 1 16 1 [] [] %s" % coq(arr(body))
    if f == "aes":
        if name == "it_should_multiply_in_field":
            ms = re.findall(r"mul\((\w+), (\w+)\), (\w+)\)", body)
            assert len(ms) == body.count("assert_eq!")
            return "(%s)" % " ;; ".join("mul_check %d %d %d" % tuple(int(x, 0) for x in m) for m in ms)
        if name == "it_should_inverse_sub_bytes": return "inverse_sub_bytes TEST_BLOCK"
        if name == "it_should_inverse_mix_columns": return "inverse_mix_columns TEST_BLOCK"
        if name == "it_should_inverse_shift_rows": return "inverse_shift_rows TEST_BLOCK"
        if name.startswith("it_should_expand"):
            n = int(re.search(r"\],\s*(\d+)\s*\),", body).group(1))
            return "expand_check %s %d %s" % (coq(arr(body, 0)), n, coq(arr(body, 1)))
        if name == "it_should_encrypt_first_test_from_the_spec":
            return "encrypt_check %s %s %s" % tuple(coq(arr(body, k)) for k in range(3))
    if f == "pkcs7":
        steps = []
        for st in re.findall(r"assert_eq!\((.*?)\);", body, re.S):
            st = re.sub(r"\s+", " ", st).strip()
            m = re.match(r'(pad|unpad)\.(write|flush)\((.*?)\)', st)
            obj, op = m.group(1), m.group(2)
            rest = st[m.end():]
            lit = lambda t: coq(P(t[t.index('b"'):]).expr())
            if op == "write":
                out = "None" if rest.strip(" ,") == "None" else "(Some %s)" % lit(rest)
                steps.append("%s_expect_write %s %s" % (obj, lit(m.group(3)), out))
            elif "expect_err" in rest:
                steps.append("unpad_expect_err %s" % re.search(r"UnpadError::(\w+)", rest).group(1))
            else: steps.append("%s_expect_flush %s" % (obj, lit(rest)))
        obj = "unpad" if "Unpad::new" in body else "pad"
        n = re.search(r"::new\((\d+)\)", body).group(1)
        return "%s_script %s [%s]" % (obj, n, "; ".join(steps))
    raise Exception(name)

PRE = open(os.path.join(os.path.dirname(os.path.abspath(__file__)), "tests_prelude.txt")).read()
out, n, skipped = [PRE], 0, []
for f in ["sha256", "hmac", "pbkdf2", "salsa20", "scrypt", "aes", "pkcs7", "aes_cbc"]:
    out.append("\n(** * src/%s.rs *)\n" % f)
    for name, line, body in tests(f):
        if (f, name) in TOO_LONG:
            out.append("(** src/%s.rs:%d, %s: not evaluated (%s). *)\n" % (f, line, name, TOO_LONG[f, name]))
            skipped.append(name); continue
        m = re.match(r"\s*(\w+)\(", body)
        if m and (f, m.group(1)) in CHECK:
            p = P(body); p.i = m.end()
            call = CHECK[f, m.group(1)].format(*[coq(a) for a in p.args(")")])
        else: call = hand(f, name, body)
        out.append("(** src/%s.rs:%d *)\nExample %s_%s :\n  %s = Ret tt.\nProof. vm_compute. reflexivity. Qed.\n"
                   % (f, line, f, name, wrap(call, 4)))
        n += 1
# the examples in doc comments
def docs(f):
    s = open(os.path.join(SRC, f + ".rs")).read()
    res = []
    for m in re.finditer(r"/// ```rust\n(.*?)/// ```\n", s, re.S):
        body = "\n".join(l.strip()[3:].strip() for l in m.group(1).split("\n"))
        res.append((s[:m.start()].count("\n") + 2, body))
    return res
def lits(body): return re.findall(r'"([^"]*)"', body)
def doc(f, k, body):
    if f == "sha256": return "sha256_check [%s] %s" % (b(lits(body)[0]), coq(arr(body)))
    if f == "hmac": return "hmac_check %s [%s] %s" % (b(lits(body)[0]), b(lits(body)[1]), coq(arr(body)))
    if f == "salsa20":
        v = P(body); v.i = body.index("vec![")
        assert "salsa20(&[7; 64], 100, &mut out)" in body
        return "salsa20_check (repeat 7 64) 100 %s" % coq(v.expr())
    if f == "aes": return "doc_round_trip %s %s" % (coq(arr(body, 0)), coq(arr(body, 1)))
    if f == "aes_cbc" and "Cipher::new" in body:
        return "doc_cipher %s %s %s" % (coq(arr(body, 0)), coq(arr(body, 1)), b(lits(body)[0]))
    if f == "aes_cbc": return "doc_decipher %s %s %s" % tuple(coq(arr(body, k)) for k in range(3))
    return None
out.append("\n(** * Examples in doc comments *)\n")
nd = 0
for f in ["sha256", "hmac", "pbkdf2", "salsa20", "scrypt", "aes", "aes_cbc"]:
    for k, (line, body) in enumerate(docs(f)):
        call = doc(f, k, body)
        if call is None:
            out.append("(** src/%s.rs:%d: not evaluated (too long). *)\n" % (f, line)); continue
        out.append("(** src/%s.rs:%d *)\nExample %s_doc%s :\n  %s = Ret tt.\nProof. vm_compute. reflexivity. Qed.\n"
                   % (f, line, f, "" if k == 0 else str(k + 1), wrap(call, 4)))
        nd += 1
print(nd, "doc examples")
open(os.path.join(os.path.dirname(os.path.abspath(__file__)), "..", "rocq", "theories", "Tests.v"), "w").write("\n".join(out))
print(n, "tests,", len(skipped), "not evaluated")
