#!/usr/bin/env python3
"""Generate rocq/theories/CfgTables.v (what get() and set() of the OCPP 1.6 configuration do per key) from
lib/ocpp/v16/charge_point_configuration.cpp, and rocq/theories/CfgSchema.v from config/v16/profile_schemas."""
import json, os, re, sys

REPO = os.environ.get("REPO", "/repo")
SRC = "lib/ocpp/v16/charge_point_configuration.cpp"
OUT = os.path.join(os.path.dirname(os.path.abspath(__file__)), "..", "rocq", "theories")
text = open(os.path.join(REPO, SRC)).read()
lines = text.split("\n")

# functions: name -> (first line, last line, return type, body)
funcs = {}
i = 0
while i < len(lines):
    m = re.match(r"^(\S.*?)\s?ChargePointConfiguration::(\w+)\($", lines[i]) or \
        re.match(r"^(\S.*?)\s?ChargePointConfiguration::(\w+)\(.*$", lines[i])
    if m and not lines[i].startswith(" ") and "::ChargePointConfiguration(" not in lines[i]:
        j = i
        while lines[j] != "}":
            j += 1
        body = "\n".join(lines[i:j + 1])
        funcs[m.group(2)] = (i + 1, j + 1, m.group(1).strip(), body)
        i = j
    i += 1


def q(s):
    return '"' + s.replace('"', '""') + '"'


def die(msg):
    sys.exit("gen_config: " + msg)


# ---- readers -------------------------------------------------------------------------------------------------------
SPECIAL_KIND = {
    "getSupportedCiphers12": "KColons", "getSupportedCiphers13": "KColons", "getLogMessagesFormat": "KCommas",
    "getSupportedChargingProfilePurposeTypes": "KPurposes", "getIgnoredProfilePurposesOffline": "KPurposeText",
    "getAuthorizeConnectorZeroOnConnectorOne": "KIfSingle", "getDefaultPrice": "KPretty",
}


def getter(name):
    """(section, key, need, kind) of a plain getter."""
    first, last, ret, body = funcs[name]
    accesses = re.findall(r'config(?:\["(\w+)"\]|\.at\("(\w+)"\))\s*(?:\["(\w+)"\]|\.contains\("(\w+)"\))', body)
    pairs = {(a or b, c or d) for a, b, c, d in accesses}
    if len(pairs) != 1:
        die("%s: %s" % (name, pairs))
    section, key = pairs.pop()
    conditional = '.contains("%s")' % key in body
    ret = ret.replace("std::", "")
    inner = re.match(r"optional<(.*)>$", ret)
    if conditional and inner:
        need = "May"
    elif conditional and ret == "bool" and "return false;" in body:
        need = "OrFalse"
    elif name == "getLocalAuthListEnabled" and 'config.contains("LocalAuthListManagement")' in body and "return false;" in body:
        need = "OrFalseSection"
    elif conditional and name == "getIgnoredProfilePurposesOffline":
        need = "May"
    elif not conditional and not inner:
        need = "Must"
    else:
        die("need of %s" % name)
    base = inner.group(1) if inner else ret
    if name in SPECIAL_KIND:
        kind = SPECIAL_KIND[name]
    elif base == "bool":
        kind = "KBool"
    elif base in ("int32_t", "int"):
        kind = "KInt"
    elif base in ("uint32_t",):
        kind = "KUnsigned"
    elif base == "string":
        kind = "KText"
    elif re.match(r"CiString<(\d+)>$", base):
        kind = "(KShort %s%%nat)" % re.match(r"CiString<(\d+)>$", base).group(1)
    else:
        die("type of %s: %s" % (name, ret))
    return section, key, need, kind


def reader(match, fn, profile):
    first, last, ret, body = funcs[fn]
    name = re.search(r'key = "(\w+)";', body).group(1)
    ro = re.search(r"readonly = (.*?);", body).group(1)
    access = {"true": "ReadOnly", "false": "ReadWrite",
              "this->core_schema_unlock_connector_on_ev_side_disconnect_ro_value": "ByCoreSchema",
              'this->internal_schema["properties"][kv.key]["readOnly"]': "ByInternalSchema"}[ro]
    gs = [g for g in re.findall(r"\b(get\w+)\(\)", body) if g in funcs]
    gs = [g for g in gs if not g.endswith("KeyValue")]
    if len(gs) != 1:
        die("%s uses %s" % (fn, gs))
    section, key, need, kind = getter(gs[0])
    if fn == "getCpoNameKeyValue":
        need = "OrBlank"
    # the conversion to text agrees with the kind
    conv = {"KBool": "bool_to_string", "KIfSingle": "bool_to_string", "KInt": "to_string", "KUnsigned": "to_string",
            "KCommas": "to_csl", "KPurposes": "to_csl", "KPurposeText": "to_csl"}.get(kind)
    if conv and conv not in body:
        die("%s: no %s" % (fn, conv))
    if not conv and ("to_string" in body):
        die("%s: to_string of %s" % (fn, kind))
    return ('  Plain (Reader %s %s %s %s %s %s %s %s) (* %s %d-%d, %s %d-%d *)' % (
        q(match), "None" if profile is None else "(Some %s)" % q(profile), q(section), q(key), q(name), need, kind, access,
        fn, first, last, gs[0], funcs[gs[0]][0], funcs[gs[0]][1]))


items = []
first, last, _, body = funcs["get"]
profile = None
k = first
while k < last:
    line = lines[k - 1]
    m = re.match(r"    if \(this->supported_feature_profiles.count\(SupportedFeatureProfiles::(\w+)\) != 0\) \{", line)
    if m:
        profile = m.group(1)
    elif line == "    }":
        profile = None if profile is not None and not re.match(r'    if \(key', lines[k - 3]) else profile
    m = re.match(r'\s+if \(key == "(\w+)"\) \{', line)
    if m:
        r = re.match(r"\s+return this->(\w+)\(\);", lines[k])
        if not r:
            die("get line %d" % k)
        items.append(reader(m.group(1), r.group(1), profile))
    elif 'rfind("MeterPublicKey["' in line:
        items.append("  PublicKeys (* get 3630-3647 *)")
    elif 'find("DefaultPriceText")' in line:
        items.append("  PriceTexts (* get 3748-3753 *)")
    k += 1

# ---- writers -------------------------------------------------------------------------------------------------------
first, last, _, body = funcs["set"]
branches = []
cur = None
for k in range(first, last + 1):
    line = lines[k - 1]
    m = re.match(r"    (?:\} else )?if \((.*)\) \{$", line)
    if m:
        cur = [k, k, m.group(1), []]
        branches.append(cur)
    elif line == "    } else {":
        cur = None
    elif cur is not None:
        cur[1] = k
        cur[3].append(line)


def const(name):
    return int(re.search(r"const \S+ %s = (\d+);" % name, text).group(1))


def setter(fn):
    f, l, ret, body = funcs[fn]
    m = re.search(r'this->config\["(\w+)"\]\["(\w+)"\] = ', body)
    u = re.search(r'setInUserConfig\("(\w+)", "(\w+)",', body)
    if m.groups() != u.groups():
        die("%s: %s, %s" % (fn, m.groups(), u.groups()))
    cond = re.search(r"if \(this->(\w+)\(\)(?: != std::nullopt|\.has_value\(\))\) \{", body)
    return m.group(1), m.group(2), cond is not None, f, l


writers = []
for k0, k1, cond, blines in branches:
    b = "\n".join(blines)
    m = re.match(r'key == "(\w+)"$', cond)
    note = "set %d-%d" % (k0, k1)
    if not m:
        if 'find("DefaultPriceText")' in cond:
            writers.append("  WPriceText (* %s *)" % note)
        elif 'contains("Custom")' in cond:
            writers.append("  WCustom (* %s *)" % note)
        else:
            die(cond)
        continue
    name = m.group(1)
    if name == "SecurityProfile":
        writers.append("  WNothing %s (* %s *)" % (q(name), note))
        continue
    fns = [f for f in re.findall(r"this->(set\w+)\(", b)]
    if len(fns) != 1:
        die("%s: %s" % (name, fns))
    fn = fns[0]
    section, key, present, f, l = setter(fn)
    fb = funcs[fn][3]
    guard = "Always"
    g = re.search(r"if \(this->(get\w+)\(\) == std::nullopt\) \{\s*return ConfigurationStatus::NotSupported;", b) or \
        re.search(r"if \(not this->(get\w+)\(\)\.has_value\(\)\) \{\s*return ConfigurationStatus::NotSupported;", b)
    if not g and re.search(r"if \(this->(get\w+)\(\)\.has_value\(\)\) \{", b) and b.rstrip().endswith("return ConfigurationStatus::NotSupported;\n        }"):
        g = re.search(r"if \(this->(get\w+)\(\)\.has_value\(\)\) \{", b)
    if g:
        s, kk, need, kind = getter(g.group(1))
        if (s, kk, need) != (section, key, "May"):
            die("guard of %s" % name)
        guard = "(IfThere %s)" % kind
    p = re.search(r"supported_feature_profiles.count\(SupportedFeatureProfiles::(\w+)\) != 0", b)
    if p:
        guard = "(IfProfile %s)" % q(p.group(1))
    if "is_positive_integer" in b:
        lo, hi = "0", "int_max"
        m = re.search(r"!valid or \w+ < (\d+)", b)
        if m:
            lo = m.group(1)
        m = re.search(r"!valid or \w+ > (\d+)", b)
        if m:
            hi = m.group(1)
        m = re.search(r"if \(\w+ > ([A-Z_]+)\)", b)
        if m:
            hi = str(const(m.group(1)))
        rule = "(RInt %s %s)" % (lo, hi)
    elif "std::stoi" in b:
        m = re.search(r"_value <= 0 or _value > 3", b)
        rule = "RPhases" if m else die(name)
    elif "isBool" in b:
        rule = "RBool"
        if "!this->getUnlockConnectorOnEVSideDisconnectKeyValue().readonly" in b:
            guard = "IfUnlockWritable"
    elif "string_to_bool" in b:
        rule = "RAnyBool"
    elif "isConnectorPhaseRotationValid" in b:
        rule = "RRotation"
    elif "validate_connector_evse_ids" in b:
        rule = "REvseIds"
    elif "measurands_supported" in fb:
        rule = "RMeasurands"
    elif fn == "setIgnoredProfilePurposesOffline":
        rule, guard = "RPurposes", "Always"
    elif fn == "setAuthorizationKey":
        rule = "RAuthorizationKey"
    elif "checkTimeOffset" in fb:
        rule = "RTimeOffset"
    elif fn == "setDefaultPrice":
        rule = "RJson"
    elif fn == "setNextTimeOffsetTransitionDateTime":
        rule = "RFuture"
    elif fn == "setCentralSystemURI":
        rule = "RReboot"
    else:
        lo, hi = "None", "None"
        m = re.search(r"length\(\) < ([A-Z_]+)", b)
        if m:
            lo = "(Some %d%%nat)" % const(m.group(1))
        m = re.search(r"length\(\) > ([A-Z_]+)", b)
        if m:
            hi = "(Some %d%%nat)" % const(m.group(1))
        m = re.search(r"length\(\) != ([A-Z_]+)", b)
        if m:
            lo = hi = "(Some %d%%nat)" % const(m.group(1))
        rule = "(RText %s %s)" % (lo, hi)
    writers.append("  Wanted (Writer %s %s %s %s %s %s) (* %s, %s %d-%d *)" % (
        q(name), guard, rule, q(section), q(key), "true" if present else "false", note, fn, f, l))


def listing(entries):
    out = []
    for n, e in enumerate(entries):
        code, comment = e.split(" (* ", 1)
        out.append(code + ("" if n == len(entries) - 1 else ";") + " (* " + comment)
    return "\n".join(out)


doc = """(** What ChargePointConfiguration::get and ::set do per key (%s).
    Generated by tools/gen_config.py from the source; the lines of every function used are given. *)
From Coq Require Import ZArith List Bool String Ascii.
From Verif Require Import StrModel JsonModel CfgModel.
Import ListNotations.
Local Open Scope string_scope.
Local Open Scope Z_scope.

(** get (%d-%d), in the order of its comparisons. *)
Definition readers : list item := [
%s
].

(** set (%d-%d), in the order of its comparisons. *)
Definition writers : list witem := [
%s
].
""" % (SRC, funcs["get"][0], funcs["get"][1], listing(items), funcs["set"][0], funcs["set"][1], listing(writers))
open(os.path.join(OUT, "CfgTables.v"), "w").write(doc)

# ---- schemas -------------------------------------------------------------------------------------------------------
SCH = os.path.join(REPO, "config/v16/profile_schemas")
IGNORED = {"description", "descrption", "$comment", "$schema", "$ref", "default", "readOnly"}
TYPES = {"boolean": "SBool", "integer": "SInt", "number": "SNumber", "string": "SText", "array": "SArray", "object": "SObject"}


def schema(s, ind):
    known = {"type", "minimum", "maximum", "minLength", "maxLength", "items", "properties", "required", "additionalProperties"}
    for x in s:
        if x not in known and x not in IGNORED:
            die("schema keyword " + x)
    t = s["type"]
    if t in ("integer", "number"):
        return "(%s %s %s)" % (TYPES[t], opt(s.get("minimum")), opt(s.get("maximum")))
    if t == "string":
        return "(SText %s %s)" % (opt(s.get("minLength")), opt(s.get("maxLength")))
    if t == "boolean":
        return "SBool"
    if t == "array":
        return "(SArray %s)" % schema(s["items"], ind)
    props = ";\n".join("%s(%s, %s)" % (" " * (ind + 2), q(k), schema(v, ind + 2)) for k, v in s.get("properties", {}).items())
    req = "; ".join(q(x) for x in s.get("required", []))
    return "(SObject %s [%s] [\n%s])" % ("true" if s.get("additionalProperties") is False else "false", req, props)


def opt(x):
    return "None" if x is None else "(Some %d)" % x


root = json.load(open(os.path.join(SCH, "Config.json")))
parts = []
writable = []
defaults = []
for sec in root["properties"]:
    d = json.load(open(os.path.join(SCH, sec + ".json")))
    parts.append("(** %s.json *)\nDefinition schema_%s : schema := %s.\n" % (sec, sec, schema(d, 0)))
    for k, v in d["properties"].items():
        writable.append("  (%s, %s, %s)" % (q(sec), q(k), "false" if v["readOnly"] else "true"))
        if "default" in v:
            defaults.append("  (%s, %s)" % (q(sec), q(k)))
doc = """(** The schemas the configuration is validated against when the library is started (config/v16/profile_schemas/*.json).
    Generated by tools/gen_config.py. Descriptions, comments and defaults are left out. *)
From Coq Require Import ZArith List Bool String Ascii.
From Verif Require Import CfgSchemaLang.
Import ListNotations.
Local Open Scope string_scope.
Local Open Scope Z_scope.

%s
(** Config.json; the section Custom is added by Schemas::load_root_schema (lib/ocpp/common/schemas.cpp 36-54). *)
Definition sections : list (string * schema) := [
%s
].
Definition required_sections : list string := [%s].

(** Every key of the schemas, and whether it can be written ("readOnly": false). *)
Definition catalogue : list (string * string * bool) := [
%s
].

(** The keys with a "default", which the library fills in when it is started. *)
Definition defaulted : list (string * string) := [
%s
].
""" % ("\n".join(parts), ";\n".join("  (%s, schema_%s)" % (q(s), s) for s in root["properties"]),
       "; ".join(q(x) for x in root["required"]), ";\n".join(writable), ";\n".join(defaults))
open(os.path.join(OUT, "CfgSchema.v"), "w").write(doc)

# ---- an example ----------------------------------------------------------------------------------------------------
example = json.load(open(os.path.join(REPO, "config/v16/config-full.json")))
for sec in root["properties"]:
    if sec in example:
        for k, v in json.load(open(os.path.join(SCH, sec + ".json")))["properties"].items():
            if "default" in v:
                example[sec].setdefault(k, v["default"])


def literal(v, ind):
    if v is True or v is False:
        return "JBool " + str(v).lower()
    if isinstance(v, int):
        return "JInt %s" % (v if v >= 0 else "(%d)" % v)
    if isinstance(v, float):
        return "JFloat " + q(repr(v))
    if isinstance(v, str):
        return "JStr " + q(v)
    if isinstance(v, list):
        return "JArr [%s]" % "; ".join(literal(x, ind) for x in v)
    sep = ";\n" + " " * (ind + 2)
    return "JObj [\n%s%s]" % (" " * (ind + 2), sep.join("(%s, %s)" % (q(k), literal(v[k], ind + 2)) for k in sorted(v)))


doc = """(** config/v16/config-full.json with the default values of the schemas.
    Generated by tools/gen_config.py. *)
From Coq Require Import ZArith List Bool String Ascii.
From Verif Require Import StrModel JsonModel.
Import ListNotations.
Local Open Scope string_scope.
Local Open Scope Z_scope.

Definition example_config : list (string * json) := [
%s
].
""" % (";\n".join("  (%s, %s)" % (q(s), literal(example[s], 2)) for s in sorted(example)))
open(os.path.join(OUT, "CfgExample.v"), "w").write(doc)
