#!/usr/bin/env python3
"""Write rocq/theories/SerTables.v: for every struct of the OCPP data types and messages its members as declared in the
header and the statements of its to_json and from_json, each read from its own place in /repo."""
import glob, os, re, sys
root = os.path.dirname(os.path.dirname(os.path.abspath(__file__)))
repo = sys.argv[1] if len(sys.argv) > 1 else "/repo"
strip = lambda s: re.sub(r"//[^\n]*", lambda m: " " * len(m.group(0)), s)
line = lambda s, i: s.count("\n", 0, i) + 1
q = lambda x: '"' + x.replace('"', '""') + '"'

def body(s, i):
    d, j = 0, i
    while True:
        if s[j] == "{": d += 1
        if s[j] == "}":
            d -= 1
            if d == 0: return s[i + 1:j], j
        j += 1

# Which table an enumeration and its conversions have, from EnumTables.v.
enums, fns = {}, {}
for m in re.finditer(r"\(\*\* (\w+): (\S+) [^*]*\*\)\nDefinition (e_(common|v16|v2)_(\w+)) ", open(os.path.join(root, "rocq/theories/EnumTables.v")).read()):
    enums[m.group(4), m.group(1)] = m.group(3)
    fns[m.group(4), m.group(5)] = m.group(3)

consts = "".join(open(x).read() for x in glob.glob(os.path.join(repo, "include/ocpp/*/*.hpp")))
defs, order, messages = {}, [], []
for ns in ["v16", "v2"]:
    hs = ["include/ocpp/%s/ocpp_types.hpp" % ns] + sorted(os.path.relpath(x, repo) for x in glob.glob(os.path.join(repo, "include/ocpp/%s/messages/*.hpp" % ns)))
    decl = {}
    for h in hs:
        s = strip(open(os.path.join(repo, h)).read())
        for m in re.finditer(r"^struct (\w+)( : public ocpp::Message)? \{", s, re.M):
            b, e = body(s, m.end() - 1)
            ms = []
            for st in b.split(";"):
                st = " ".join(st.split())
                if not st or st.startswith("std::string get_type()"): continue
                x = re.fullmatch(r"(.+) (\w+)", st)
                assert x, (h, m.group(1), st)
                ms.append((x.group(1), x.group(2)))
            decl[m.group(1)] = (ms, h, line(s, m.start()), line(s, e), bool(m.group(2)))
    cs = ["lib/ocpp/%s/ocpp_types.cpp" % ns] + sorted(os.path.relpath(x, repo) for x in glob.glob(os.path.join(repo, "lib/ocpp/%s/messages/*.cpp" % ns)))
    to, frm, kind = {}, {}, {}
    for c in cs:
        s = strip(open(os.path.join(repo, c)).read())
        for m in re.finditer(r"void to_json\(json& j, const (\w+)& k\) \{", s):
            b, e = body(s, m.end() - 1); to[m.group(1)] = (b, c, line(s, m.start()), line(s, e))
        for m in re.finditer(r"void from_json\(const json& j, (\w+)& k\) \{", s):
            b, e = body(s, m.end() - 1); frm[m.group(1)] = (b, c, line(s, m.start()), line(s, e))
        for m in re.finditer(r"std::string (\w+)::get_type\(\) const \{\s*return \"(\w+)\";", s): kind[m.group(1)] = m.group(2)
    assert set(to) == set(frm) == set(decl), (set(to) ^ set(frm), set(to) ^ set(decl))
    en = lambda f: fns.get((ns, f)) or fns["common", f]

    def ty(t):
        t = t.strip()
        m = re.fullmatch(r"std::vector<(.+)>", t)
        if m: return "Vec (%s)" % ty(m.group(1)), deps(m.group(1))
        return base(t), deps(t)
    def deps(t):
        m = re.fullmatch(r"std::(?:vector|optional)<(.+)>", t.strip())
        if m: return deps(m.group(1))
        return [t] if t in decl else []
    def base(t):
        m = re.fullmatch(r"std::vector<(.+)>", t)
        if m: return "Vec (%s)" % base(m.group(1))
        m = re.fullmatch(r"CiString<([A-Z]\w+)>", t)
        if m:
            m = re.search(r"constexpr \S+ %s = (\d+);" % m.group(1), consts)
            return "Str (Some %s)" % m.group(1)
        m = re.fullmatch(r"CiString<(\d+)>", t)
        if m: return "Str (Some %s)" % m.group(1)
        if t in ("std::string",): return "Str None"
        if t == "bool": return "Flag"
        if t == "std::int32_t": return "Int"
        if t == "float": return "Float"
        if t == "ocpp::DateTime": return "Time"
        if t in ("CustomData", "json"): return "Any"
        if t in decl: return ns + "_" + t
        if (ns, t) in enums: return "Enm " + enums[ns, t]
        if ("common", t) in enums: return "Enm " + enums["common", t]
        raise SystemExit("type " + t)

    def conv_out(e):
        """key expression of one written value -> (member, how)"""
        for pat, how in [(r"k\.(\w+)", "Plain"), (r"k\.(\w+)\.to_rfc3339\(\)", "Text")]:
            m = re.fullmatch(pat, e)
            if m: return m.group(1), how
        m = re.fullmatch(r"conversions::(\w+)_to_string\(k\.(\w+)\)", e)
        assert m, e
        return m.group(2), "Conv %s" % en(m.group(1))

    def writes(n):
        s = " ".join(to[n][0].split()); r = []
        s = s.replace("(void)k;", "").strip()
        m = re.match(r"j = json\(\{\}, true\);", s)
        if m: s = s[m.end():].strip()
        else:
            m = re.match(r"j = json\{(.*?)\};", s); assert m, (n, s)
            inner = m.group(1).strip(); s = s[m.end():].strip()
            pos = 0
            for x in re.finditer(r"\{\"(\w+)\", ([^{}]*?)\},?", inner):
                assert inner[pos:x.start()].strip() in ("", ","), (n, inner); pos = x.end()
                f, how = conv_out(x.group(2)); r.append("WReq %s %s (%s)" % (q(x.group(1)), q(f), how))
            assert inner[pos:].strip() in ("", ","), (n, inner[pos:])
        while s:
            m = re.match(r"if \(k\.(\w+)\) \{", s); assert m, (n, s)
            b, e = body(s, m.end() - 1); b = b.strip(); s = s[e + 1:].strip(); g = m.group(1)
            x = re.fullmatch(r"j\[\"(\w+)\"\] = (.*);", b)
            y = re.fullmatch(r"(?:if \(j\.empty\(\)\) \{ j = json\{\{\"(\w+)\", json::array\(\)\}\}; \} else \{ j\[\"(\w+)\"\] = json::array\(\); \}|j\[\"(\w+)\"\] = json::array\(\);) "
                             r"for \(const auto& val : k\.(\w+)\.value\(\)\) \{ j\[\"(\w+)\"\]\.push_back\((val|conversions::(\w+)_to_string\(val\))\); \}", b)
            if y:
                keys = set(z for z in (y.group(1), y.group(2), y.group(3), y.group(5)) if z)
                assert len(keys) == 1, (n, b)
                r.append("WOpt %s %s %s (%s)" % (q(g), q(y.group(5)), q(y.group(4)), "Each" if not y.group(7) else "EachConv " + en(y.group(7))))
            else:
                assert x, (n, b)
                f, how = conv_out(x.group(2).replace(".value()", "")); assert ".value()" in x.group(2)
                r.append("WOpt %s %s %s (%s)" % (q(g), q(x.group(1)), q(f), how))
        return r

    def conv_in(e):
        for pat, how in [(r"j\.at\(\"(\w+)\"\)", "Plain"), (r"ocpp::DateTime\(std::string\(j\.at\(\"(\w+)\"\)\)\)", "Text"),
                         (r"j\.at\(\"(\w+)\"\)\.get<std::string>\(\)", "Text")]:
            m = re.fullmatch(pat, e)
            if m: return m.group(1), how
        m = re.fullmatch(r"conversions::string_to_(\w+)\(j\.at\(\"(\w+)\"\)\)", e)
        assert m, e
        return m.group(2), "Conv %s" % en(m.group(1))

    def reads(n):
        s = " ".join(frm[n][0].split()); r = []
        s = re.sub(r"\(void\)[jk];", "", s).strip()
        while s:
            m = re.match(r"k\.(\w+) = ([^;]*);", s)
            if m:
                key, how = conv_in(m.group(2)); r.append("RReq %s %s (%s)" % (q(key), q(m.group(1)), how)); s = s[m.end():].strip(); continue
            m = re.match(r"for \(const auto& val : j\.at\(\"(\w+)\"\)\) \{ k\.(\w+)\.push_back\(val\); \}", s)
            if m:
                r.append("RReq %s %s Each" % (q(m.group(1)), q(m.group(2)))); s = s[m.end():].strip(); continue
            m = re.match(r"if \(j\.contains\(\"(\w+)\"\)\) \{", s); assert m, (n, s)
            b, e = body(s, m.end() - 1); b = b.strip(); s = s[e + 1:].strip(); g = m.group(1)
            x = re.fullmatch(r"k\.(\w+)\.emplace\( ?([^;]*)\);", b)
            y = re.fullmatch(r"const json& arr = j\.at\(\"(\w+)\"\); std::vector<(.+?)> vec; for \(const auto& val : arr\) \{ vec\.push_back\((val|conversions::string_to_(\w+)\(val\))\); \} k\.(\w+)\.emplace\(vec\);", b)
            z = re.fullmatch(r"const json& value = j\.at\(\"(\w+)\"\); if \(value\.is_string\(\)\) \{ k\.(\w+) = value; \} else if \(value\.is_boolean\(\)\) \{ if \(value\.get<bool>\(\)\) \{ k\.\2 = \"true\"; \} else \{ k\.\2 = \"false\"; \} \} "
                             r"else if \(value\.is_array\(\) \|\| value\.is_object\(\)\) \{ k\.\2 = value\.dump\(\); \} else \{ k\.\2 = value\.dump\(\); \}", b)
            if y: r.append("ROpt %s %s %s (%s)" % (q(g), q(y.group(1)), q(y.group(5)), "Each" if not y.group(4) else "EachConv " + en(y.group(4))))
            elif z: r.append("ROpt %s %s %s Dumped" % (q(g), q(z.group(1)), q(z.group(2))))
            else:
                assert x, (n, b)
                key, how = conv_in(x.group(2)); r.append("ROpt %s %s %s (%s)" % (q(g), q(key), q(x.group(1)), how))
        return r

    done = set()
    def emit(n):
        if n in done: return
        done.add(n)
        ms, h, l1, l2, msg = decl[n]
        rows = []
        for t, f in ms:
            m = re.fullmatch(r"std::optional<(.+)>", t)
            opt = bool(m)
            for d in deps(t): emit(d)
            rows.append("(%s, %s, %s)" % (q(f), "true" if opt else "false", base(m.group(1) if m else t)))
        w, r = writes(n), reads(n)
        _, c, a1, a2 = to[n]; _, c2, b1, b2 = frm[n]; assert c == c2
        order.append("(** %s: %s %d-%d, %s %d-%d and %d-%d. *)\nDefinition %s_%s : ty := Struct\n  [%s]\n  [%s]\n  [%s].\n" % (
            n, h, l1, l2, c, a1, a2, b1, b2, ns, n, ";\n   ".join(rows), ";\n   ".join(w), ";\n   ".join(r)))
        defs[ns, n] = True
        if msg: messages.append((ns, n, kind[n]))
    for n in decl: emit(n)
open(os.path.join(root, "rocq/theories/SerTables.v"), "w").write(
"""(** Written by tools/gen_messages.py from the sources. Per struct: the members of its declaration (name, optional, type),
    the statements of its to_json and those of its from_json, each in the order of the source. *)
From Coq Require Import String ZArith List.
From Verif Require Import EnumModel EnumTables SerModel.
Import ListNotations.
Local Open Scope string_scope.
Local Open Scope Z_scope.

""" + "\n".join(order) + "\n(** Every struct with its name. *)\nDefinition all_types : list (string * ty) :=\n  [" +
";\n   ".join("(%s, %s_%s)" % (q(ns + "_" + n), ns, n) for ns, n in defs) +
"].\n\n(** Messages: version, name of the struct, what get_type returns. *)\nDefinition all_messages : list (string * string * string * ty) :=\n  [" +
";\n   ".join("(%s, %s, %s, %s_%s)" % (q(ns), q(n), q(k), ns, n) for ns, n, k in messages) + "].\n")
print(len(defs), "structs", len(messages), "messages")
