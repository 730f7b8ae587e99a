#!/usr/bin/env python3
"""Write rocq/theories/EnumTables.v: the enumerators declared in the headers and the two conversions of every enumeration,
each read from its own place in /repo."""
import os, re, sys
root = os.path.dirname(os.path.dirname(os.path.abspath(__file__)))
repo = sys.argv[1] if len(sys.argv) > 1 else "/repo"
SRC = ["lib/ocpp/common/types.cpp", "lib/ocpp/v16/types.cpp", "lib/ocpp/v16/ocpp_enums.cpp",
       "lib/ocpp/v2/types.cpp", "lib/ocpp/v2/ocpp_enums.cpp"]
HDR = {"common": ["include/ocpp/common/types.hpp", "include/ocpp/common/cistring.hpp"],
       "v16": ["include/ocpp/v16/types.hpp", "include/ocpp/v16/ocpp_enums.hpp"],
       "v2": ["include/ocpp/v2/types.hpp", "include/ocpp/v2/ocpp_enums.hpp", "include/ocpp/v2/ocpp_types.hpp"]}
strip = lambda s: re.sub(r"//[^\n]*", lambda m: " " * len(m.group(0)), s)
line = lambda s, i: s.count("\n", 0, i) + 1

def body(s, i):
    """The text between the brace at i and the one closing it, and the end."""
    d, j = 0, i
    while True:
        if s[j] == "{": d += 1
        if s[j] == "}":
            d -= 1
            if d == 0: return s[i + 1:j], j
        j += 1

decls = {}
for ns, fs in HDR.items():
    for f in fs:
        p = os.path.join(repo, f)
        if not os.path.exists(p): continue
        s = strip(open(p).read())
        for m in re.finditer(r"enum class (\w+)[^{;]*\{", s):
            b, e = body(s, m.end() - 1)
            names = [x.strip() for x in b.split(",") if x.strip()]
            if any("=" in x for x in names): print("explicit values", f, m.group(1), [x for x in names if "=" in x])
            names = [x.split("=")[0].strip() for x in names]
            decls[ns, m.group(1)] = (names, f, line(s, m.start()), line(s, e))

out, seen, skipped = [], [], []
for f in SRC:
    s = strip(open(os.path.join(repo, f)).read())
    ns = f.split("/")[2]
    tos, froms = {}, {}
    for m in re.finditer(r"std::string (\w+)_to_string\((?:const )?(\w+)&? \w+\) \{", s):
        b, e = body(s, m.end() - 1)
        if "switch" not in b:
            skipped.append((f, m.group(1), "no switch")); continue
        rows, pend = [], []
        for x in re.finditer(r"case (?:\w+::)*(\w+):|return \"((?:[^\"\\]|\\.)*)\"|default:", b):
            if x.group(1): pend.append(x.group(1))
            elif x.group(2) is not None:
                rows += [(c, x.group(2)) for c in pend]; pend = []
            else: raise SystemExit("default in " + m.group(1))
        if pend: skipped.append((f, m.group(1), "cases without string: " + ",".join(pend)))
        assert "throw" in b or "return" in b.split("}")[-1], m.group(1)
        tos[m.group(1)] = (m.group(2), rows, line(s, m.start()), line(s, e), "throw" in b)
    for m in re.finditer(r"(\w+) string_to_(\w+)\(const std::string& \w+\) \{", s):
        b, e = body(s, m.end() - 1)
        rows = re.findall(r"if \(\w+ == \"((?:[^\"\\]|\\.)*)\"\) \{\s*return (?:\w+::)*(\w+);", b)
        froms[m.group(2)] = (m.group(1), [(a, c) for a, c in rows], line(s, m.start()), line(s, e), b.count("return"), "throw" in b)
    for n in tos:
        if n not in froms: skipped.append((f, n, "no string_to")); continue
        t, o, l1, l2, th1 = tos[n]; t2, i, l3, l4, nret, th2 = froms[n]
        assert t == t2, (n, t, t2)
        if nret != len(i) or not th1 or not th2: print("LOOK", f, n, nret, len(i), th1, th2)
        d = decls.get((ns, t)) or decls[("common", t)]
        name = "e_" + ns + "_" + n
        seen.append(name)
        q = lambda x: '"' + x.replace('"', '""') + '"'
        out.append("(** %s: %s %d-%d, %s %d-%d and %d-%d. *)\nDefinition %s : enum := Enum %s\n  [%s]\n  [%s]\n  [%s].\n" % (
            t, d[1], d[2], d[3], f, l1, l2, l3, l4, name, q(t), "; ".join(q(x) for x in d[0]),
            "; ".join("(%s, %s)" % (q(a), q(b)) for a, b in o), "; ".join("(%s, %s)" % (q(a), q(b)) for a, b in i)))
    for n in froms:
        if n not in tos: skipped.append((f, n, "no to_string"))
for x in skipped: print("skipped", *x)
open(os.path.join(root, "rocq/theories/EnumTables.v"), "w").write(
"""(** Written by tools/gen_enums.py from the sources. Per enumeration: the enumerators of its declaration, the cases of
    the switch of ..._to_string and the comparisons of string_to_..., each in the order of the source. After the last case
    and the last comparison both throw. *)
From Coq Require Import String List.
From Verif Require Import EnumModel.
Import ListNotations.
Local Open Scope string_scope.

""" + "\n".join(out) + "\nDefinition all_enums : list enum :=\n  [" + ";\n   ".join(seen) + "].\n")
print(len(seen), "enumerations")
