#!/usr/bin/env python3
"""Check the citations of the model: every cited file and line range exists, and every
non-test function of /repo/src lies in a cited range.  Prints what is not covered."""
import glob, re, sys
REPO = sys.argv[1] if len(sys.argv) > 1 else "/repo"
MODEL = ["Base", "Digit", "Slice", "Mul", "Div", "UBig", "Text", "Forms", "Bench", "Traits", "Panics", "Order"]
cited, bad = {}, 0
for m in MODEL:
    t = open("rocq/theories/%s.v" % m).read()
    for c in re.finditer(r"((?:src|benches)/[\w/]+\.rs)((?::|,| and |\s|-|\d|\((?:binary|decimal)[^)]*(?:\[[^\]]*\])?[^)]*\))*)", t):
        for r in re.finditer(r"(\d+)(?:-(\d+))?", c[2]):
            cited.setdefault(c[1], []).append((int(r[1]), int(r[2] or r[1]), m))
for f, rs in cited.items():
    try: n = len(open("%s/%s" % (REPO, f)).read().split("\n"))
    except OSError: print("no such file", f); bad += 1; continue
    for a, b, m in rs:
        if not (1 <= a <= b <= n): print("bad range", m, f, a, b); bad += 1
for f in sorted(glob.glob(REPO + "/src/**/*.rs", recursive=True)):
    name = f[len(REPO) + 1:]; lines = open(f).read().split("\n")
    end = next((i for i, l in enumerate(lines) if l.strip() == "#[cfg(test)]"), len(lines))
    for i, l in enumerate(lines[:end]):
        if re.match(r"\s*(?:pub(?:\([^)]*\))? )?(?:const )?(?:unsafe )?fn (\w+)", l):
            if not any(a <= i + 1 <= b or a <= i + 2 <= b for a, b, _ in cited.get(name, [])):
                print("not cited: %s:%d %s" % (name, i + 1, l.strip())); bad += 1
print("done,", sum(map(len, cited.values())), "citations,", bad, "problems")
