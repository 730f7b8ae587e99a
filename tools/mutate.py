#!/usr/bin/env python3
"""mutate.py plan.json [--log]: try wrong programs against the theorems, in a scratch copy outside /verif.

plan.json: list of {"files": [model, ..., properties] (names without .v, in build order),
                    "edit_file": name, "def": definition, "old": text, "new": text, "claim": claim it breaks}.
Lemmas whose proof fails are admitted in the scratch copy, so that all the property theorems that depend on them are found
(they show up in Print Assumptions). With --log a line per attempt is appended to seeded/LOG.jsonl."""
import json, os, re, shutil, subprocess, sys, datetime
root = os.path.abspath(os.path.join(os.path.dirname(os.path.abspath(__file__)), ".."))
scratch = os.environ.get("SCRATCH", "/tmp/mutants")
START = re.compile(r"^[ \t]*(?:Local |Global |#\[[^\]]*\] *)?(Lemma|Theorem|Example|Corollary|Fact|Remark|Definition|Fixpoint|Instance)\s+([A-Za-z0-9_']+)", re.M)

def compile_all(files, d, timeout):
    failed = []
    hit = {}
    for f in files:
        p = os.path.join(d, "theories", f + ".v")
        for _ in range(80):
            try:
                r = subprocess.run(["coqc", "-Q", "theories", "Verif", p], cwd=d, capture_output=True, text=True, timeout=timeout)
                err, out, code = r.stderr, r.stdout, r.returncode
            except subprocess.TimeoutExpired:
                return failed + ["TIMEOUT in " + f], hit, True
            if code == 0:
                break
            m = re.search(r'File "[^"]*", line (\d+), characters (\d+)-', err)
            if not m:
                return failed + ["? " + err[-200:]], hit, True
            s = open(p).read()
            lines = s.split("\n")
            pos = len("\n".join(lines[:int(m.group(1)) - 1]).encode()) + int(m.group(2))
            pos = len(s.encode()[:pos].decode(errors="ignore"))
            cand = [x for x in START.finditer(s) if x.start() <= pos + 1]
            if not cand:
                return failed + ["? " + f + ": " + err[-200:]], hit, True
            st = cand[-1]
            failed.append(st.group(2))
            if os.environ.get("MUTDBG"): print(f, m.group(1), m.group(2), st.group(2), err[-400:], flush=True)
            tail = s[st.start():]
            pr = re.search(r"^\s*Proof\b", tail, re.M)
            q = re.search(r"\b(Qed|Defined)\.", tail)
            if pr and q and st.start() + pr.start() < pos + 1 and pr.start() < q.start():
                s2 = s[:st.start()] + tail[:pr.start()] + "\nProof. Admitted." + tail[q.end():]
            elif q:
                s2 = s[:st.start()] + tail[q.end():]
                pa = re.compile(r"^Print Assumptions %s\.\s*$" % re.escape(st.group(2)), re.M)
                s2 = pa.sub("", s2)
            else:
                e = re.search(r"\.\s*\n", tail)
                s2 = s[:st.start()] + tail[e.end():]
            open(p, "w").write(s2)
        else:
            return failed + ["too many failures in " + f], hit, True
        for part in out.split("@@")[1:]:
            name, rest = part.split("\n", 1)
            if "Axioms:" in rest:
                hit[name.strip()] = re.findall(r"^(\w+)\s*:?", rest.split("Axioms:")[1], re.M)
    return failed, hit, False

def main():
    plan = json.load(open(sys.argv[1]))
    log = "--log" in sys.argv
    for mu in plan:
        shutil.rmtree(scratch, ignore_errors=True)
        shutil.copytree(os.path.join(root, "rocq"), scratch)
        p = os.path.join(scratch, "theories", mu["edit_file"] + ".v")
        s = open(p).read()
        if s.count(mu["old"]) < 1:
            print("NOT FOUND", mu["def"], mu["old"]); continue
        s = s.replace(mu["old"], mu["new"], 1) if not mu.get("all") else s.replace(mu["old"], mu["new"])
        open(p, "w").write(s)
        files = mu["files"]
        files = files[files.index(mu["edit_file"]):]
        for f in files:
            q = os.path.join(scratch, "theories", f + ".v")
            t = open(q).read()
            t = re.sub(r"^Print Assumptions ([A-Za-z0-9_']+)\.", r'Goal True. idtac "@@\1". exact I. Qed. Print Assumptions \1.', t, flags=re.M)
            open(q, "w").write(t)
        failed, hit, broken = compile_all(files, scratch, mu.get("timeout", 900))
        props = sorted(set(hit) | set(x for x in failed))
        print(json.dumps(dict(definition=mu["def"], new=mu["new"], failed_lemmas=failed, theorems=sorted(hit), broken=broken)), flush=True)
        if log:
            with open(os.path.join(root, "seeded", "LOG.jsonl"), "a") as g:
                g.write(json.dumps(dict(definition=mu["edit_file"] + "." + mu["def"], edit="%s  =>  %s" % (mu["old"], mu["new"]), claim=mu["claim"],
                    failed=sorted(hit) + [x for x in failed if x not in hit], tightened=mu.get("tightened", []))) + "\n")
main()
