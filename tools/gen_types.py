#!/usr/bin/env python3
"""Generates rocq/theories/Types.v (struct layouts and lingo tables) from the Go sources.

usage: gen_types.py /repo > rocq/theories/Types.v
The output is committed; this script is only a convenience and not part of the trusted base:
every row cites the lines it transcribes."""
import re, sys
repo = sys.argv[1]
FILES = [("general", "general", "lingo-general/general.go"), ("simple", "simpleremote", "lingo-simpleremote/simpleremote.go"),
         ("disp", "dispremote", "lingo-dispremote/dispremote.go"), ("ext", "extremote", "lingo-extremote/extremote.go"),
         ("audio", "audio", "lingo-audio/audio.go")]
BASE = {"byte": "FU 1", "uint8": "FU 1", "uint16": "FU 2", "uint32": "FU 4", "uint64": "FU 8",
        "int16": "FI 2", "int32": "FI 4", "bool": "FBool", "[]byte": "FBytes", "[]uint8": "FBytes",
        "[]uint32": "FU32s", "interface{}": "FIface"}
structs, tables = [], []
for pre, pkg, fn in FILES:
    lines = open(f"{repo}/{fn}").read().split("\n")
    alias, defs = {}, {}
    for l in lines:
        m = re.match(r"type (\w+) (byte|uint\d+|int\d+)$", l)
        if m: alias[m.group(1)] = m.group(2)
    i = 0
    while i < len(lines):
        l = lines[i]
        m = re.match(r"type (\w+) struct ?\{(\})?\s*$", l)
        if m and m.group(2):
            defs[m.group(1)] = []
            structs.append((pre, pkg, fn, m.group(1), i + 1, i + 1, []))
        elif m:
            j, fields = i + 1, []
            while lines[j] != "}":
                f = re.sub(r"//.*", "", lines[j]).split()
                if f: fields.append(f)
                j += 1
            out = []
            for f in fields:
                if len(f) == 1: out += defs[f[0]]; continue
                name, ty = f
                ty = alias.get(ty, ty)
                a = re.match(r"\[(\d+)\]byte$", ty)
                if name == "_": out.append((name, "FBlank"))
                elif a: out.append((name, f"FArr {a.group(1)}"))
                elif ty in BASE: out.append((name, BASE[ty]))
                elif ty in defs: out += [(name + "." + n, t) for n, t in defs[ty]]
                elif ty.startswith("[]") and ty[2:] in defs: out.append((name, "FStructs"))
                else: raise Exception((fn, j, ty))
            defs[m.group(1)] = out
            structs.append((pre, pkg, fn, m.group(1), i + 1, j + 1, out))
            i = j
        elif re.match(r"var Lingos struct \{", l):
            j, rows = i + 1, []
            while lines[j] != "}":
                r = re.match(r'\s*(\w+)\s+`id:"(\w+)"`', lines[j])
                if r: rows.append((r.group(1), r.group(2), j + 1))
                j += 1
            tables.append((pre, pkg, fn, i + 1, j + 1, rows))
            i = j
        i += 1

p = print
p("(** GENERATED by tools/gen_types.py from /repo: the Go struct types of the lingo packages, their")
p("    field layouts and names, and the lingo tables.  Field names are in the comments.")
p("    Fields of named integer types are given the width of the underlying type; a struct-typed or")
p("    embedded field is replaced by its fields (encoding/binary treats both alike). *)")
p("From Verif Require Import Base GoTypes.")
p("\n(** One constructor per Go struct type. *)\nInductive pty : Type :=")
for pre, pkg, fn, n, a, b, fs in structs:
    p(f"| {pre}_{n} (* {fn}:{a}-{b} *)")
p("| anon_struct (* struct{}, lingo-extremote/extremote.go:187, handler.go:61 *).")
p("\n(** Field layout of each struct, in declaration order. *)\nDefinition layout (t : pty) : list fty :=\n  match t with")
for pre, pkg, fn, n, a, b, fs in structs:
    p(f"  | {pre}_{n} => [{'; '.join(t for _, t in fs)}] (* {fn.split('/')[1]}:{a}-{b} {' '.join(x for x,_ in fs)} *)")
p("  | anon_struct => []\n  end.")
p("\n(** reflect.Type.String() of each struct type: package and type name (lingo.go:124 prints it). *)")
p("Definition type_name (t : pty) : string :=\n  match t with")
for pre, pkg, fn, n, a, b, fs in structs:
    p(f'  | {pre}_{n} => "{pkg}.{n}"')
p('  | anon_struct => "struct {}"\n  end%string.')
p("\n(** All struct types, and the position of each (used only to compare types). *)")
p("Definition all_types : list pty :=\n  [" + ";\n   ".join(f"{s[0]}_{s[3]}" for s in structs) + ";\n   anon_struct].")
p("Definition pty_index (t : pty) : nat :=\n  match t with")
for k, s in enumerate(structs): p(f"  | {s[0]}_{s[3]} => {k}")
p(f"  | anon_struct => {len(structs)}\n  end.")
p("Definition pty_eqb (a b : pty) : bool := Nat.eqb (pty_index a) (pty_index b).")
for pre, pkg, fn, a, b, rows in tables:
    p(f"\n(** {fn}:{a}-{b}, [Lingos]: id tag and type of each field, in order. *)")
    p(f"Definition {pre}_Lingos : list (string * pty) :=\n  [" + ";\n   ".join(f'("{t}"%string, {pre}_{n}) (* {ln} *)' for n, t, ln in rows) + "].")
