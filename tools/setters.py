#!/usr/bin/env python3
"""Prints record field setters: setters.py Rec Ctor param field:type ..."""
import sys
rec, prefix = sys.argv[1], sys.argv[2]
fields = sys.argv[3:]
for f in fields:
    body = "; ".join(("%s := v" % g) if g == f else ("%s := %s s" % (g, g)) for g in fields)
    print("Definition %s%s (v : _) (s : %s) : %s := {| %s |}." % (prefix, f, rec, rec, body))
