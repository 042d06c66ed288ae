#!/usr/bin/env python3
"""Translate the unit tests inside the sources of the crate (mod tests of /repo/src/**/*.rs)
into Rocq examples about the model: rocq/theories/UnitTests.v.  Every statement of every
test must be understood, or the script stops."""
import re, glob, os, sys

OUT = sys.argv[1] if len(sys.argv) > 1 else "rocq/theories/UnitTests.v"

# name: (model function, kinds of the arguments, kind of the result).  A capital letter is a
# buffer changed by the call; the model returns the changed buffers before the result.
FN = {
    "inc_assign": ("inc_assign D", "L", "b"),
    "add_assign_digit": ("add_assign_digit D", "Lz", "o"),
    "add_assign_big": ("add_assign_big D", "Ll", "b"),
    "add_big_into": ("add_big_into D", "llL", "r"),
    "dec_assign": ("dec_assign D", "L", "r"),
    "sub_assign_digit": ("sub_assign_digit D", "Lz", "r"),
    "sub_assign_big": ("sub_assign_big D", "Ll", "r"),
    "sub_big_into": ("sub_big_into D", "llL", "r"),
    "rsub_assign_big": ("rsub_assign_big D", "Ll", "r"),
    "sub_assign_big_abs_sign": ("sub_assign_big_abs_sign D", "Lnl", ("b", "n")),
    "sub_big_into_abs_sign": ("sub_big_into_abs_sign D", "llL", ("b", "n")),
    "shl_carry_assign_within_digit": ("shl_carry_assign_within_digit D", "Lzz", "z"),
    "shr_carry_assign_within_digit": ("shr_carry_assign_within_digit D", "Lzz", ("n", "z")),
    "div3_carry_assign": ("div3_carry_assign D", "Lz", ("n", "z")),
    "double_carry_assign": ("double_carry_assign D", "Lb", "b"),
    "mul_add_assign_digit": ("mul_add_assign_digit D", "Lzz", "z"),
    "mul_digit_into": ("mul_digit_into D", "lzL", None),
    "mul_pair_add_assign_digit": ("mul_pair_add_assign_digit D", "Lzzz", ("z", "z")),
    "mul_big_long_into": ("mul_big_long_into D", "llL", "n"),
    "square_long_into": ("square_long_into D", "lL", "n"),
    "mul_big_karatsuba_into": ("mul_big_karatsuba_into D (mul_fuel D 100)", "llLL", "n"),
    "mul_big_toom3_into": ("mul_big_toom3_into D (mul_fuel D 100)", "llLL", "n"),
    "square_karatsuba_into": ("square_karatsuba_into D (square_fuel D 100)", "lLL", "n"),
    "square_toom3_into": ("square_toom3_into D (square_fuel D 100)", "lLL", "n"),
    "rem_digit": ("rem_digit D", "lz", "rz"),
    "div_assign_digit": ("div_assign_digit D", "Lz", ("r", "n", "z")),
    "div_assign_digit_pair": ("div_assign_digit_pair D", "Lzz", ("r", "n", "z", "z")),
    "div_big_long": ("div_big_long D", "LlLL", ("n", "n")),
    "div_big_bz": ("div_big_bz D", "LlLL", ("n", "n")),
    "div_big": ("div_big D", "LlL", ("r", "n", "n")),
    "drop_leading_zeros": ("drop_leading_zeros", "ln", "n"),
}
METH = {
    "inc": ("d_inc", True, "b"), "dec": ("d_dec", True, "b"),
    "max_shift": ("d_max_shift", False, "z"),
    "add_carry_assign": ("d_add_carry", True, "b"), "sub_carry_assign": ("d_sub_carry", True, "b"),
    "shl_carry_assign": ("d_shl_carry", True, "z"), "shr_carry_assign": ("d_shr_carry", True, "z"),
    "double_carry_assign": ("d_double_carry", True, "b"), "mul_carry_assign": ("d_mul_carry", True, "z"),
    "rem_carry": ("d_rem_carry", False, "z"), "div_carry_assign": ("d_div_carry", True, "z"),
    "div3_carry_assign": ("d_div3_carry", True, "z"),
    "add_prod_carry_assign": ("d_add_prod_carry", True, "z"),
    "sub_prod_carry_assign": ("d_sub_prod_carry", True, "z"),
}
NUM = r"(?:0x[0-9a-fA-F_]+?|[0-9][0-9_]*?)"

def z(s):
    s = s.replace("_", "")
    return int(s, 16) if s.startswith("0x") else int(s)

def split(s):
    """split at the top-level commas"""
    out, depth, cur = [], 0, ""
    for c in s:
        if c in "([{": depth += 1
        if c in ")]}": depth -= 1
        if c == "," and depth == 0: out.append(cur.strip()); cur = ""
        else: cur += c
    if cur.strip(): out.append(cur.strip())
    return out

class Test:
    def __init__(self, src, name):
        self.src, self.name, self.lines, self.vars, self.claims, self.k = src, name, [], {}, [], 0
    def emit(self, s): self.lines.append(s)
    def fresh(self):
        self.k += 1
        return "v%d" % self.k
    def hints(self, text, fam, wid):
        if "BinaryDigit" in text: fam.add("B")
        if "DecimalDigit" in text: fam.add("D")
        for w in re.findall(r"(?:u|_u|<u)(8|16|32|64)\b", text): wid.add(w)
    def digit(self, s):
        s = re.sub(r"\(\s+", "(", s)
        m = re.fullmatch(r"(?:Binary|Decimal)Digit\((" + NUM + r")_?(?:u(?:8|16|32|64))?\)", s)
        if m: return str(z(m.group(1)))
        if re.fullmatch(r"(?:Binary|Decimal)Digit(::<u\d+>)?::zero\(\)", s): return "0"
        m = re.fullmatch("(" + NUM + ")_?(?:u(?:8|16|32|64))?", s)
        if m: return str(z(m.group(1)))
        raise ValueError("%s: number %s" % (self.name, s))
    def array(self, s):
        m = re.fullmatch(r"&?(?:mut )?(?:vec!)?\[(.*)\]", s, re.S)
        if not m: return None
        m2 = re.fullmatch(r"(.*);\s*(\d+)", m.group(1), re.S)
        if m2: return "(repeat %s %s%%nat)" % (self.digit(m2.group(1)), m2.group(2))
        return "[" + "; ".join(self.digit(e) for e in split(m.group(1))) + "]"
    def arg(self, s, kind):
        s = re.sub(r"^&(mut )?", "", s) if not re.match(r"^&(mut )?\[", s) else s
        if s in self.vars: return s
        if kind in "lL":
            a = self.array(s)
            if a is not None: return a
        if kind in "zn":
            d = self.digit(s)
            if d is not None: return d + ("%nat" if kind == "n" else "")
        if kind == "b" and s in ("true", "false"): return s
        raise ValueError("%s: argument %s" % (self.name, s))
    def dtype(self, texts, what):
        fam, wid = set(), set()
        for t in texts:
            self.hints(t, fam, wid)
            for v in re.findall(r"\b[a-z]\w*\b", t):
                if v in self.vars: self.hints(self.vars[v][1], fam, wid)
        if len(fam) != 1 or len(wid) != 1: raise ValueError("%s: type of %s: %s %s" % (self.name, what, fam, wid))
        return fam.pop() + wid.pop()
    def call(self, e, pat, later):
        """a call, binding the variables of pat; returns the kind of the bound value"""
        unwrap = e.endswith(".unwrap()")
        if unwrap: e = e[:-9]
        m = re.fullmatch(r"(\w+)\((.*)\)", e, re.S)
        if m and m.group(1) in FN:
            f, kinds, ret = FN[m.group(1)]; args = split(m.group(2))
            assert len(args) == len(kinds), (self.name, e)
            try: t = self.dtype(args, e)
            except ValueError: t = self.dtype(args + later, e)
            outs = [a.replace("&mut ", "") for a, k in zip(args, kinds) if k == "L"]
            call = re.sub(r"\bD\b", "(impl true %s)" % t, f)
            call += " " + " ".join(self.arg(a, k) for a, k in zip(args, kinds))
            txt = ("Binary" if t[0] == "B" else "Decimal") + "Digit u" + t[1:]
            for o in outs: self.vars[o] = ("l", txt)
            if ret is None:
                self.emit("%s <- %s ;;" % (outs[0], call)); return None
            if ret == "rz": ret = ("r", "z")
            p = self.fresh() if unwrap else pat
            if outs: self.emit("'(%s) <- %s ;;" % (", ".join(outs + [p]), call))
            elif p.startswith("("): self.emit("'%s <- %s ;;" % (p, call))
            else: self.emit("%s <- %s ;;" % (p, call))
            if unwrap:
                assert ret[0] == "r"
                ret = ret[1:] if len(ret) > 2 else ret[1]
                self.emit("%s%s <- unwrap %s ;;" % ("'" if pat.startswith("(") else "", pat, p))
            return ret
        m = re.fullmatch(r"(.*)\.(\w+)\((.*)\)", e, re.S)
        if m and m.group(2) in METH and not unwrap:
            f, mut, ret = METH[m.group(2)]; args = split(m.group(3))
            try: t = self.dtype([m.group(1)] + args, e)
            except ValueError: t = self.dtype([m.group(1)] + args + later, e)
            me = m.group(1) if m.group(1) in self.vars else self.digit(m.group(1))
            aa = [a if a in ("true", "false") else self.arg(a, "z") for a in args]
            call = "%s (impl true %s) %s" % (f, t, " ".join([me] + aa))
            if mut: self.emit("'(%s, %s) <- %s ;;" % (me, pat, call))
            else: self.emit("%s <- %s ;;" % (pat, call))
            return ret
        m = re.fullmatch(r"DecimalDigit::<u64>::div_rem_base\((.*)\)", e)
        if m:
            self.emit("'%s <- div_rem_base true (decimal_radix D64) %d ;;" % (pat, z(m.group(1)))); return ("z", "z")
        raise ValueError("%s: %s" % (self.name, e))
    def value(self, s, kind):
        """an expected value of a kind"""
        if kind == "l": return self.array(s)
        if kind == "b": return s
        if kind == "z": return self.digit(s)
        if kind == "n": return self.digit(s) + "%nat"
        if kind == "o":
            return "None" if s == "None" else "Some " + self.digit(re.fullmatch(r"Some\((.*)\)", s).group(1))
        if kind == "r" or kind[0] == "r":
            m = re.fullmatch(r"Err\(Error::(\w+)\)", s)
            if m: return "RErr %s" % m.group(1)
            m = re.fullmatch(r"Ok\((\d+)\)", s)
            return "ROk %s%%nat" % m.group(1)
        if isinstance(kind, tuple):
            m = re.fullmatch(r"\((.*)\)", s, re.S)
            return "(" + ", ".join(self.value(e, k) for e, k in zip(split(m.group(1)), kind)) + ")"
        raise ValueError(s)
    def claim(self, p):
        c = "c%d" % (len(self.claims) + 1)
        self.emit("let %s := (%s) in" % (c, p)); self.claims.append(c)
    def bind(self, pat, kind):
        if pat.startswith("("):
            for v, k in zip(split(pat[1:-1]), kind): self.vars[v] = (k, "")
        else: self.vars[pat] = (kind, "")
    def stmt(self, s, later):
        m = re.fullmatch(r"let (?:mut )?(\w+)(?:: ([^=]*?))? = (&?(?:mut )?(?:vec!)?\[.*\])", s, re.S)
        if m:
            self.emit("let %s : digits := %s in" % (m.group(1), self.array(m.group(3))))
            self.vars[m.group(1)] = ("l", (m.group(2) or "") + m.group(3)); return
        m = re.fullmatch(r"let (?:mut )?(\w+) = ((?:Binary|Decimal)Digit\([^()]*\))", s)
        if m:
            self.emit("let %s := %s in" % (m.group(1), self.digit(m.group(2))))
            self.vars[m.group(1)] = ("z", m.group(2)); return
        m = re.fullmatch(r"let (\(.*?\)|\w+) = (.*)", s, re.S)
        if m:
            k = self.call(m.group(2), m.group(1), later); self.bind(m.group(1), k); return
        m = re.fullmatch(r"assert!\((!?)(\w+)\)", s)
        if m:
            assert self.vars[m.group(2)][0] == "b"
            self.claim("%s = %s" % (m.group(2), "false" if m.group(1) else "true")); return
        m = re.fullmatch(r"(\w+)\[(\d+)\] = (.*)", s)
        if m:
            self.emit("%s <- set %s %s %s ;;" % (m.group(1), m.group(1), m.group(2) + "%nat", self.digit(m.group(3)))); return
        m = re.fullmatch(r"assert_eq!\((.*)\)", s, re.S)
        if m:
            a, b = split(m.group(1))[:2]
            a = re.sub(r"^&(?=\w+$)", "", a)
            if a in self.vars:
                k = self.vars[a][0]; self.claim("%s = %s" % (a, self.value(b, k))); return
            m = re.fullmatch(r"&?(\w+)\[\.\.(\w+)\]", a)
            if m:
                n = m.group(2) if m.group(2) in self.vars else m.group(2) + "%nat"
                v = self.fresh(); self.emit("%s <- prefix %s %s ;;" % (v, m.group(1), n))
                self.claim("%s = %s" % (v, self.array(b))); return
            m = re.fullmatch(r"cmp\((\w+), (\w+)\)", a)
            if m:
                c = {"Less": "Lt", "Greater": "Gt", "Equal": "Eq"}[b.split("::")[-1]]
                self.claim("num_cmp %s %s = %s" % (m.group(1), m.group(2), c)); return
            v = self.fresh(); k = self.call(a, v, []); self.claim("%s = %s" % (v, self.value(b, k))); return
        if re.fullmatch(r"\w+\(.*\)", s, re.S):
            self.call(s, "_", later); return
        raise ValueError("%s: %s" % (self.name, s))
    def coq(self):
        body = "\n  ".join(self.lines)
        return "(** %s *)\nExample %s : holds (\n  %s\n  Ret (%s)).\nProof. vm_compute. repeat split. Qed.\n" % (
            self.src, self.name, body, " /\\ ".join(self.claims))

HEAD = '''(** * UnitTests: the unit tests inside the sources of the crate, run on the model.

    Written by tools/gen_unit_tests.py from the test modules in /repo/src.  They call the
    internal functions directly, so they also reach Karatsuba, Toom-3 and the recursive
    division on operands far below the cutoffs.  These are tests of the fidelity of the
    model, not proofs of properties.  [dbg] is true, as in a test build. *)
From Coq Require Import ZArith NArith List Bool.
From Verif Require Import Base Digit Slice Mul Div.
Import ListNotations.
Open Scope Z_scope.
Open Scope m_scope.

Definition holds (e : M Prop) : Prop := match e with Ret p => p | _ => False end.
'''

def statements(body):
    """split at the top-level semicolons (not those of [x; n]), unrolling the loops over cases"""
    out, depth, cur, i = [], 0, "", 0
    while i < len(body):
        c = body[i]
        m = re.match(r"for \(idx, case\) in cases\.iter\(\)\.enumerate\(\)\s*\{(.*?)\n        \}", body[i:], re.S)
        if m and not cur.strip():
            cases = re.fullmatch(r"let cases = \[(.*)\]", out.pop(), re.S).group(1)
            wid = re.search(r"u(8|16|32|64)", cases).group(0)
            for case in split(cases):
                vals = split(case.strip()[1:-1])
                vals = [v if "u" in v else v + wid for v in vals]
                text = re.sub(r"case\.(\d)", lambda q: vals[int(q.group(1))], m.group(1))
                out += statements(text)
            i += m.end(); continue
        if c in "([{": depth += 1
        if c in ")]}": depth -= 1
        if c == ";" and depth == 0: out.append(cur.strip()); cur = ""
        else: cur += c
        i += 1
    assert not cur.strip(), cur
    return out

out = [HEAD]; count = 0; names = set()
for f in sorted(glob.glob("/repo/src/**/*.rs", recursive=True)):
    text = open(f).read(); rel = os.path.relpath(f, "/repo")
    if rel == "src/ubig.rs": continue      # tools/gen_ubig_tests.py
    if "#[test]" not in text: continue
    out.append("(** ** %s *)\n" % rel)
    for m in re.finditer(r"#\[test\]\s*fn (\w+)\(\)\s*\{", text):
        end, depth = m.end(), 1
        while depth:
            depth += {"{": 1, "}": -1}.get(text[end], 0); end += 1
        line = text[:m.start()].count("\n") + 1
        name = m.group(1)
        while name in names: name += "'"
        names.add(name)
        t = Test("%s:%d" % (rel, line), name)
        body = re.sub(r"//[^\n]*", "", text[m.end():end - 1])
        ss = [s if "cases" in s else re.sub(r"\s+", " ", s) for s in statements(body)]
        for i, s in enumerate(ss): t.stmt(s, ss[i + 1:i + 3])
        out.append(t.coq()); count += 1
open(OUT, "w").write("\n".join(out))
print(count, "tests")
