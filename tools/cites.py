#!/usr/bin/env python3
"""cites.py REPO: compare the model with the source text.

1. Header layouts: name, size, fields (with bit ranges) and default bytes of every make_header! in
   src/headers.rs against theories/Layout.v.
2. Enum codes of src/types.rs against theories/Types.v.
3. Every "file.rs:a-b [name]" in a comment of a model file: the lines exist and mention the name.
Prints the differences; nothing but the counts if there are none."""
import re, sys, os
repo = sys.argv[1] if len(sys.argv) > 1 else "/repo"
here = os.path.join(os.path.dirname(os.path.abspath(__file__)), "..", "rocq", "theories")
rd = lambda p: open(p).read()
bad = 0
def say(*a):
    global bad
    bad += 1
    print(*a)

# 1
src = rd(repo + "/src/headers.rs")
lay = rd(here + "/Layout.v")
hdrs = {}
for m in re.finditer(r"^make_header!\s*\(\s*(\w+)\s+(\d+)\s*\(([^)]*)\)\s*(?:vec!\[([^\]]*)\])?", src, re.M):
    fields = [(n, int(a), int(b)) for n, a, b in re.findall(r"(\w+)\s*:\s*(\d+)\s*-\s*(\d+)", m.group(3))]
    dflt = None if m.group(4) is None else [int(x, 0) for x in re.findall(r"0x[0-9a-fA-F]+|\d+", m.group(4))]
    hdrs[m.group(1)] = (int(m.group(2)), fields, dflt)
nums = lambda t: [int(x, 0) for x in re.findall(r"0x[0-9a-fA-F]+|\d+", t)]
for n, (size, fields, dflt) in hdrs.items():
    mine = [(f, int(a), int(b)) for f, a, b in re.findall(rf'^Definition {n}_\w+ : field := Fld "(\w+)" (\d+) (\d+)\.', lay, re.M)]
    if mine != fields: say("layout", n, [x for x in fields if x not in mine], [x for x in mine if x not in fields])
    m = re.search(rf"^Definition {n} : htype := (?:HT|ht_zero) (\d+) \"(\w+)\" (\d+)\s*\[([^\]]*)\]\s*(.*?)\.$", lay, re.M | re.S)
    if not m: say("no definition of", n); continue
    if m.group(2) != n or int(m.group(3)) != size: say("size", n, size, m.groups()[1:3])
    if [f"{n}_{f[0]}" for f in fields] != [x.strip() for x in m.group(4).split(";")]: say("field list", n)
    mine = m.group(5).strip()
    want = dflt if dflt is not None else [0] * size
    got = [0] * size if mine == "" else [nums(mine)[0]] * nums(mine)[1] if "repeat" in mine else nums(mine)
    if got != want: say("default", n, want, mine)

# 2
types, mt = rd(repo + "/src/types.rs"), rd(here + "/Types.v")
codes = 0
for e in re.finditer(r"pub enum (\w+) \{(.*?)\}", types, re.S):
    for n, v in re.findall(r"(\w+)\s*=\s*(0x[0-9a-fA-F]+|\d+)", e.group(2)):
        codes += 1
        f = re.search(rf"Definition {e.group(1)}_code .*?\.\n", mt, re.S)
        arm = f and re.search(rf"\|?\s*\b(?:\w+_)?{n}\s*=>\s*(0x[0-9a-fA-F]+|\d+)", f.group(0))
        if not arm or int(arm.group(1), 0) != int(v, 0): say("code", e.group(1), n, v, arm and arm.group(1))

# 3
model = "Bits Types Layout Heap Packet Text Build Utils Slow Fast Show Trait Python Ops Conc Client Threads Print Programs Pcap TPrint Pipe Free Race Boxes Usize".split()
cites = 0
files = {}
def lines(f):
    if f not in files:
        for d in ("src/", "src/parser/", "tests/", "examples/", ""):
            if os.path.exists(f"{repo}/{d}{f}"): files[f] = rd(f"{repo}/{d}{f}").splitlines(); break
        else: files[f] = None
    return files[f]
for v in model:
    for c in re.finditer(r"\(\*\*? (.*?)\*\)", rd(f"{here}/{v}.v"), re.S):
        cur = None
        for f, a, b, name in re.findall(r"(?:([\w/]+\.rs):|(?<=[,;(]) ?)(\d\d+)(?:-(\d+))?(?: \[(?:\w+::)*([a-z]\w+)(?= *[\](:]| ?->)[^\]]*\])?", c.group(1)):
            f = f.replace("src/", "") if f else cur
            if not f: continue
            cur = f
            ls = lines(f)
            a = int(a); b = int(b or a)
            cites += 1
            if ls is None: say(v, "no file", f); continue
            if not (1 <= a <= b <= len(ls)): say(v, "no lines", f, a, b); continue
            if name and not re.search(rf"\b{name}\b", "\n".join(ls[a - 1:b])): say(v, f"{f}:{a}-{b} does not mention", name)
print(f"{len(hdrs)} headers, {codes} codes, {cites} citations, {bad} differences")
