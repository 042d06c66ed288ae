#!/usr/bin/env python3
"""Translate the unit tests of /repo/src/ubig.rs (construction, parsing, printing, conversion)
into Rocq examples about the model: rocq/theories/UBigTests.v.  Every statement of every
test must be understood, or the script stops."""
import re, sys

OUT = sys.argv[1] if len(sys.argv) > 1 else "rocq/theories/UBigTests.v"
NUM = r"0x[0-9a-fA-F_]+|[0-9][0-9_]*"

def z(s):
    s = s.replace("_", "")
    return int(s, 16) if s.startswith("0x") else int(s)

def dtype(text):
    fam = set(re.findall(r"(Binary|Decimal)Digit", text))
    wid = set(re.findall(r"u(8|16|32|64)\b", text))
    if len(fam) != 1 or len(wid) != 1: raise ValueError("type of " + text)
    return fam.pop()[0] + wid.pop()

def array(s):
    m = re.fullmatch(r"(?:&|vec!)\[(.*)\]", s)
    if not m: raise ValueError("array " + s)
    out = []
    for e in m.group(1).split(","):
        if not e.strip(): continue
        m = re.fullmatch(r"(?:Binary|Decimal)Digit\((" + NUM + r"?)(?:u(?:8|16|32|64))?\)", e.strip())
        if not m: raise ValueError("digit " + e)
        out.append(str(z(m.group(1))))
    return "([" + "; ".join(out) + "] : digits)"

def text(s): return "([" + "; ".join(str(b) for b in s.encode()) + "] : bytes)"

def fmt(spec):
    m = re.fullmatch(r"(?:(.)?([<^>]))?(\+)?(#)?(0)?([0-9]+)?([xX])?", spec)
    if not m: raise ValueError("format " + spec)
    fill, al, plus, alt, zero, width, kind = m.groups()
    b = lambda x: "true" if x else "false"
    return "(mkFmt %s %d %s %s %s %s)" % ("(Some %s%%nat)" % width if width else "None", ord(fill or " "),
        {None: "AUnknown", "<": "ALeft", ">": "ARight", "^": "ACenter"}[al], b(plus), b(alt), b(zero)), kind

class Test:
    def __init__(self): self.lines, self.ty, self.claims, self.text = [], {}, [], {}
    def emit(self, s): self.lines.append(s)
    def claim(self, p):
        c = "c%d" % (len(self.claims) + 1)
        self.emit("let %s := (%s) in" % (c, p)); self.claims.append(c)
    def stmt(self, s):
        m = re.fullmatch(r"let digits(: [^=]*)? = (vec!\[.*\])", s)
        if m:
            self.emit("let ds := %s in" % array(m.group(2))); self.ty["digits"] = dtype((m.group(1) or "") + m.group(2)); return
        m = re.fullmatch(r"let n = UBig(::<.*?>)?::new\((.*)\)", s)
        if m:
            a = "ds" if m.group(2) == "digits" else array(m.group(2))
            self.ty["n"] = self.ty["digits"] if a == "ds" else dtype((m.group(1) or "") + m.group(2))
            self.emit("n <- ubig_new %s ;;" % a); return
        if s == "let n = UBig { digits }":
            self.emit("let n := ds in"); self.ty["n"] = self.ty["digits"]; return
        m = re.fullmatch(r"let n = UBig::<(.*)>::(zero|one)\(\)", s)
        if m:
            self.emit("let n := ubig_%s in" % m.group(2)); self.ty["n"] = dtype(m.group(1)); return
        m = re.fullmatch(r"let n = UBig::<(.*)>::from\((" + NUM + r")\)", s)
        if m:
            self.ty["n"] = dtype(m.group(1))
            self.emit("let n := from_T %s %d in" % (self.ty["n"], z(m.group(2)))); return
        m = re.fullmatch(r'let res = "(.*)"\.parse::<UBig<(.*)>>\(\)', s)
        if m:
            self.emit("res <- from_str true %s %s ;;" % (dtype(m.group(2)), text(m.group(1)))); return
        if s == "assert!(res.is_ok())": self.claim("match res with ROk _ => True | RErr _ => False end"); return
        m = re.fullmatch(r"assert_eq!\(res\.unwrap\(\)\.digits\(\), (&\[.*\])\)", s)
        if m: self.claim("res = ROk %s" % array(m.group(1))); return
        m = re.fullmatch(r"assert_eq!\(res, Err\(Error::(\w+)\)\)", s)
        if m: self.claim("res = RErr %s" % m.group(1)); return
        m = re.fullmatch(r"assert!\((!?)n\.is_zero\(\)\)", s)
        if m: self.claim("ubig_is_zero n = %s" % ("false" if m.group(1) else "true")); return
        m = re.fullmatch(r"assert_eq!\((n|m)\.digits\(\), (&\[.*\])\)", s)
        if m: self.claim("digits_of %s = %s" % (m.group(1), array(m.group(2)))); return
        if s == "let m = n.to_decimal()":
            self.emit("m <- to_decimal true %s n ;;" % self.ty["n"]); return
        m = re.fullmatch(r'let s = format!\("\{:?(.*)\}", n\)', s)
        if m:
            f, kind = fmt(m.group(1)); t = self.ty["n"]
            if kind: self.emit("let s := fmt_hex %s %s %s n in" % (t, "true" if kind == "X" else "false", f))
            elif t[0] == "D": self.emit("let s := fmt_display_dec %s %s n in" % (t, f))
            else: self.emit("s <- fmt_display_bin true %s %s n ;;" % (t, f))
            return
        m = re.fullmatch(r'assert_eq!\(s, "(.*)"\)', s)
        if m: self.claim("s = %s" % text(m.group(1))); return
        raise ValueError(s)

HEAD = '''(** * UBigTests: the unit tests of src/ubig.rs, run on the model.

    Written by tools/gen_ubig_tests.py.  These are tests of the fidelity of the model, not
    proofs of properties.  [dbg] is true, as in a test build. *)
From Coq Require Import ZArith NArith List Bool.
From Verif Require Import Base Digit Slice Mul Div UBig Text Traits.
Import ListNotations.
Open Scope Z_scope.
Open Scope m_scope.

Definition holds (e : M Prop) : Prop := match e with Ret p => p | _ => False end.
'''
src = open("/repo/src/ubig.rs").read()
out = [HEAD]; count = 0
for m in re.finditer(r"#\[test\]\s*fn (\w+)\(\)\s*\{\n(.*?)\n    \}\n", src, re.S):
    t = Test()
    body = re.sub(r"//[^\n]*", "", m.group(2))
    parts = [re.sub(r"\s*\n\s*", " ", s).strip() for s in body.split(";")]
    assert parts[-1] == ""
    for s in parts[:-1]: t.stmt(s.replace("&[ ", "&[").replace(" ])", "])"))
    line = src[:m.start()].count("\n") + 1
    out.append("(** src/ubig.rs:%d *)\nExample %s : holds (\n  %s\n  Ret (%s)).\nProof. vm_compute. repeat split. Qed.\n"
        % (line, m.group(1), "\n  ".join(t.lines), " /\\ ".join(t.claims)))
    count += 1
assert count == src.count("#[test]")
open(OUT, "w").write("\n".join(out))
print(count, "tests")
