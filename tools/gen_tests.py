#!/usr/bin/env python3
"""Translate the integration tests of the crate (/repo/tests/*.rs) into Rocq examples
about the model: rocq/theories/RepoTests.v.  Every statement of every test must be
understood, or the script stops."""
import re, glob, os, sys

OUT = sys.argv[1] if len(sys.argv) > 1 else "rocq/theories/RepoTests.v"
OPS = {"+": "add", "-": "sub", "*": "mul", "/": "div", "%": "rem", "<<": "shl", ">>": "shr"}
TY = r"UBig(Bin|Dec)(8|16|32|64)"

def ty(m): return ("B" if m[0] == "Bin" else "D") + m[1]
def z(s):
    s = s.replace("_", "")
    return int(s, 16) if s.startswith("0x") else int(s)
def byt(s): return '(bytes_of "%s")' % s

class Test:
    def __init__(self, src, name, panic):
        self.src, self.name, self.panic, self.lines, self.types = src, name, panic, [], {}
        self.k = 0
    def fresh(self):
        self.k += 1
        return "v%d" % self.k
    def emit(self, s): self.lines.append(s)
    def atom(self, e):
        """an operand: (coq variable or number, type or None)"""
        e = e.strip()
        m = re.fullmatch(TY + r'::from_str\("([^"]*)"\)\.unwrap\(\)', e)
        if m:
            v = self.fresh()
            self.emit("%s <- parsed %s %s ;;" % (v, ty(m.groups()[:2]), byt(m.group(3))))
            return v, ty(m.groups()[:2])
        m = re.fullmatch(TY + r"::(zero|one)\(\)", e)
        if m: return "ubig_" + m.group(3), ty(m.groups()[:2])
        if re.fullmatch(r"[0-9][0-9a-fx_]*", e): return str(z(e)), None
        if e in self.types: return e, self.types[e]
        raise ValueError(e)
    def expr(self, e):
        m = re.fullmatch(r"(\w+)\.pow\((\w+)\)", e)
        if m:
            v = self.fresh()
            self.emit("%s <- pow_r (impl true %s) %s %d%%N ;;" % (v, self.types[m.group(1)], m.group(1), z(m.group(2))))
            return v, self.types[m.group(1)]
        m = re.fullmatch(r"(\w+)\.square\(\)", e)
        if m:
            v = self.fresh()
            self.emit("%s <- square (impl true %s) %s ;;" % (v, self.types[m.group(1)], m.group(1)))
            return v, self.types[m.group(1)]
        m = re.fullmatch(r"(.*\S)\s+(\+|-|\*|/|%|<<|>>)\s+(.*)", e)
        if m:
            a, t = self.atom(m.group(1)); b, t2 = self.atom(m.group(3)); op = OPS[m.group(2)]
            v = self.fresh()
            if op in ("shl", "shr"): self.emit("%s <- %s_v true %s %s %s ;;" % (v, op, t, a, b))
            elif t2 is None: self.emit("%s <- %s_v_T true %s %s %s ;;" % (v, op, t, a, b))
            else: self.emit("%s <- %s_vv (impl true %s) %s %s ;;" % (v, op, t, a, b))
            return v, t
        return self.atom(e)
    def shown(self, f, v):
        t = self.types[v]
        if f == "{:#x}": return "Ret (fmt_hex %s false alternate %s)" % (t, v)
        if f == "{:x}": return "Ret (fmt_hex %s false plain %s)" % (t, v)
        if f == "{}":
            return ("Ret (fmt_display_dec %s plain %s)" if t[0] == "D" else "fmt_display_bin true %s plain %s") % (t, v)
        raise ValueError(f)
    def stmt(self, s):
        m = re.fullmatch(r"let (?:mut )?(\w+) = (.*)", s)
        if m:
            v, t = self.expr(m.group(2))
            self.emit("let %s := %s in" % (m.group(1), v)); self.types[m.group(1)] = t
            return
        m = re.fullmatch(r"(\w+) (\+|-|\*|/|%|<<|>>)= (.*)", s)
        if m:
            n, op = m.group(1), OPS[m.group(2)]; t = self.types[n]; b, t2 = self.atom(m.group(3))
            if op in ("shl", "shr") or t2 is None: self.emit("%s <- %s_assign%s true %s %s %s ;;" % (n, op, "" if op in ("shl", "shr") else "_T", t, n, b))
            else: self.emit("%s <- %s_assign (impl true %s) %s %s ;;" % (n, op, t, n, b))
            return
        m = re.fullmatch(r'assert_eq!\(format!\("([^"]*)", (\w+)\), "([^"]*)"\)', s)
        if m:
            v = self.fresh()
            self.emit("%s <- %s ;; expect (same_bytes %s %s) ;;;" % (v, self.shown(m.group(1), m.group(2)), v, byt(m.group(3))))
            return
        m = re.fullmatch(r"assert!\((.*\S)\s+(==|!=|<|<=|>|>=)\s+(.*)\)", s)
        if m:
            a, _ = self.atom(m.group(1)); b, _ = self.atom(m.group(3))
            c = {"==": "ubig_eqb %s %s", "!=": "negb (ubig_eqb %s %s)", "<": "is_lt (ubig_cmp %s %s)",
                 ">": "is_gt (ubig_cmp %s %s)", "<=": "negb (is_gt (ubig_cmp %s %s))", ">=": "negb (is_lt (ubig_cmp %s %s))"}[m.group(2)]
            self.emit("expect (%s) ;;;" % (c % (a, b)))
            return
        raise ValueError(s)
    def coq(self):
        pred = "panics" if self.panic else "passes"
        body = "\n  ".join(self.lines)
        return "(** %s *)\nExample %s : %s (\n  %s\n  Ret tt).\nProof. vm_compute. exact I. Qed.\n" % (self.src, self.name, pred, body)

HEAD = '''(** * RepoTests: the integration tests of the crate, run on the model.

    Written by tools/gen_tests.py from /repo/tests.  These are tests of the fidelity of
    the model, not proofs of properties.  [dbg] is true, as in a test build. *)
From Coq Require Import ZArith NArith List Bool Ascii String.
From Verif Require Import Base Digit Slice Mul Div UBig Text Forms.
Import ListNotations.
Open Scope Z_scope.
Open Scope m_scope.

Fixpoint bytes_of (s : string) : bytes :=
  match s with
  | EmptyString => []
  | String c s => Z.of_N (N_of_ascii c) :: bytes_of s
  end.
Definition alternate : fmt := mkFmt None 32 AUnknown false true false.
Definition parsed (t : dty) (s : bytes) : M digits := r <- from_str true t s ;; unwrap r.
Definition expect (b : bool) : M unit := guard b PAssert.
Fixpoint same_bytes (a b : bytes) : bool :=
  match a, b with
  | [], [] => true
  | x :: a, y :: b => (x =? y) && same_bytes a b
  | _, _ => false
  end.
Definition is_lt (c : comparison) : bool := match c with Lt => true | _ => false end.
Definition is_gt (c : comparison) : bool := match c with Gt => true | _ => false end.
Definition passes (e : M unit) : Prop := match e with Ret _ => True | _ => False end.
Definition panics (e : M unit) : Prop := match e with Panic _ => True | _ => False end.
Open Scope string_scope.
Open Scope Z_scope.
'''
out = [HEAD]; count = 0
for f in sorted(glob.glob("/repo/tests/*.rs")):
    text = open(f).read()
    out.append("(** ** tests/%s *)\n" % os.path.basename(f))
    for m in re.finditer(r"#\[test\]\s*(#\[should_panic\]\s*)?fn (\w+)\(\)\s*\{(.*?)\n\}", text, re.S):
        line = text[:m.start()].count("\n") + 1
        t = Test("tests/%s:%d" % (os.path.basename(f), line), m.group(2), bool(m.group(1)))
        body = re.sub(r"//[^\n]*", "", m.group(3))
        for s in body.split(";"):
            s = re.sub(r"\s+", " ", s).strip()
            if s: t.stmt(s)
        out.append(t.coq()); count += 1
open(OUT, "w").write("\n".join(out))
print(count, "tests")
