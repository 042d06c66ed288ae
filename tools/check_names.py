#!/usr/bin/env python3
"""Every theorem named in MANIFEST.json is stated in rocq/theories, and every source is listed
in _CoqProject. Run from the repository root."""
import glob, json, re, sys
names, bad = set(), 0
files = sorted(glob.glob('rocq/theories/*.v'))
for f in files:
    names |= set(re.findall(r'^(?:Theorem|Lemma|Corollary) (\w+)', open(f).read(), re.M))
claims = json.load(open('MANIFEST.json'))['claims']
for c in claims:
    for t in c['theorems']:
        if t not in names:
            bad += 1; print('missing', c['property'], t)
listed = [l.strip() for l in open('rocq/_CoqProject') if l.startswith('theories/')]
for f in files:
    if f[5:] not in listed:
        bad += 1; print('not listed', f)
props = [json.loads(l)['id'] for l in open('properties.jsonl')]
if props != [c['property'] for c in claims]:
    bad += 1; print('properties and claims differ')
claimed = {t for c in claims for t in c['theorems']}
for f in files:
    if 'Prop_' in f:
        for t in re.findall(r'^Theorem (\w+)', open(f).read(), re.M):
            if t not in claimed:
                print('unclaimed', t)
sys.exit(bad != 0)
