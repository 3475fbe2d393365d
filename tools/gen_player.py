#!/usr/bin/env python3
"""Translate player/main.s into the statement lists of PlayerCode.v, one Coq
term per source line (the line number is kept as a comment)."""
import re, sys

src = open(sys.argv[1] if len(sys.argv) > 1 else "/repo/player/main.s", encoding="utf-8").read().split("\n")
IMPL = {"NOP", "CLC", "INX", "INY", "BRK"}
BRANCH = {"BCS", "BPL", "BEQ", "BNE"}
equ, named, scope = {}, [], ""


def num(s):
    s = s.strip()
    return int(s[1:], 16) if s.startswith("$") else int(s)


def strip(line):
    return line.split(";")[0].rstrip()


def macro_ident(s):
    """.ident(.concat("...", .string(page), "...")) -> label term"""
    t = re.sub(r"\s", "", s)
    m = re.fullmatch(r'\.ident\(\.concat\("op_tick_(\d+)_page_",\.string\(page\)\)\)', t)
    if m:
        return "OpTick %s page" % m[1]
    m = re.fullmatch(r'\.ident\(\.concat\("_op_tick_(\d+)_page_",\.string\(page\),"_jmp"\)\)', t)
    if m:
        return "JmpOf %s page" % m[1]
    m = re.fullmatch(r'\.ident\(\.concat\("_op_tick_page_",\.string\(page\),"_tail_(\d+)"\)\)', t)
    if m:
        return "Tail page %s" % m[1]
    return None


def local(name, macro):
    if macro and name == "@D":
        return "JmpOf %s page" % macro
    l = "L_%s_at%s" % (scope, name[1:])
    if l not in named:
        named.append(l)
    return l


def glob(name):
    l = "L_" + name.lstrip("_")
    if l not in named:
        named.append(l)
    return l


def expr(s, macro):
    s = s.strip()
    if re.fullmatch(r"\$[0-9A-Fa-f]+|\d+", s):
        return "(Num 0x%X)" % num(s), num(s)
    if re.sub(r"\s", "", s) == "page<<8":
        return "(Num (256 * page))", 0x2000
    m = re.fullmatch(r"(.*?)\s*\+\s*(\d+)", s)
    base, off = (m[1], int(m[2])) if m else (s, 0)
    base = base.strip()
    if base in equ:
        return "(Num 0x%X)" % (equ[base] + off), equ[base] + off
    l = macro_ident(base) if base.startswith(".ident") else local(base, macro) if base.startswith("@") else glob(base)
    return "(Lbl (%s) %d)" % (l, off), 0x1000


def statement(line, n, macro, prev):
    """Coq terms of a source line"""
    global scope
    out = []
    line = line.strip()
    m = re.match(r"(\.ident\s*\(\.concat\s*\(.*?\)\))\s*:(.*)$", line)
    if m and macro_ident(m[1]):
        out.append("Lab (%s)" % macro_ident(m[1]))
        line = m[2].strip()
    m = re.match(r"tickident page, (\d+)$", line)
    if m:
        return ["Lab (Tail page %s)" % m[1]]
    m = re.match(r"(@?[A-Za-z_]\w*|@\d+)\s*:(?!=)(.*)$", line)
    if m:
        if m[1].startswith("@"):
            out.append("Lab (%s)" % local(m[1], macro))
        else:
            scope = m[1].lstrip("_")
            out.append("Lab (%s)" % glob(m[1]))
        line = m[2].strip()
    if not line:
        return out
    m = re.match(r"(\.byte|\.addr|\.word)\s+(.*)$", line, re.I)
    if m:
        if m[1].lower() == ".byte":
            out.append("Bytes [%s]" % "; ".join("0x%02X" % num(x) for x in m[2].split(",")))
        else:
            for x in m[2].split(","):
                out.append("Word %s" % expr(x, macro)[0])
        return out
    m = re.match(r"([A-Z]{3})(?:\s+(.*))?$", line)
    assert m, (n, line)
    op, arg = m[1], (m[2] or "").strip()
    if op in IMPL:
        assert not arg
        mode = "Impl"
    elif op in BRANCH:
        mode = "(Rel %s)" % expr(arg, macro)[0]
    elif arg.startswith("#"):
        a = arg[1:].strip()
        if a[0] in "<>":
            w, a = ("Lo" if a[0] == "<" else "Hi"), a[1:]
            e, _ = expr(a, macro)
            mode = "(Imm (%s %s))" % (w, e)
        else:
            mode = "(Imm %s)" % expr(a, macro)[0]
    else:
        m = re.match(r"(.*?),\s*([XYxy])$", arg)
        e, v = expr(m[1] if m else arg, macro)
        if m:
            mode = "(Abs%s %s)" % (m[2].upper(), e)
        elif v < 256:
            mode = "(Zp %s)" % e
        else:
            mode = "(Abs %s)" % e
    ctor = "Ins"
    last = out[-1] if out else prev
    if last and re.match(r"Lab \((JmpOf|L_op_nop_atD)", last) and op == "JMP":
        ctor = "Patched"
    if last and last == "Lab (L_op_ack_atD)":
        ctor = "PatchedLo"
    out.append("%s i%s %s" % (ctor, op, mode))
    return out


def emit(name, params, items, first, last, note):
    print("(** main.s %d-%d%s *)" % (first, last, note))
    print("Definition %s%s : list stmt := [" % (name, params))
    flat = [(s, n) for (ss, n) in items for s in ss]
    for k, (s, n) in enumerate(flat):
        print("  %s%s (* %d *)" % (s, ";" if k + 1 < len(flat) else "", n))
    print("].\n")


# pass 0: equates
for line in src:
    m = re.match(r"(\w+)\s*=\s*(\$?\w+)\s*$", strip(line))
    if m:
        equ[m[1]] = equ[m[2]] if m[2] in equ else num(m[2])

seg, macro, mstart, items, prev = None, None, 0, [], None
chunks, macros = [], []      # chunks: (segment, first, last, items | ("macro", name, page))
cur = None
for n, raw in enumerate(src, 1):
    line = strip(raw)
    t = line.strip()
    if not t or re.match(r"\w+\s*=", t) or t in (".DEBUGINFO", ".proc main", ".endproc") or t.startswith(".include"):
        continue
    m = re.match(r"\.macro\s+(\w+)\s", t + " ")
    if m:
        macro, mstart, items, prev = m[1], n, [], None
        continue
    if t == ".endmacro":
        macros.append((macro, mstart, n, items))
        macro = None
        continue
    if macro:
        if macro in ("ticklabel", "tickident"):
            continue
        if macro == "op_tick":
            items.append(t)
            continue
        num_ = re.fullmatch(r"op_tick_(\d+)", macro)[1]
        ss = statement(line, n, num_, prev)
        prev = ss[-1] if ss else prev
        items.append((ss, n))
        continue
    m = re.match(r'\.segment "(\w+)"', t)
    if m:
        seg = m[1]
        cur = None
        continue
    m = re.match(r"(op_tick\w*) (\d+)$", t)
    if m:
        chunks.append((seg, n, n, ("macro", m[1], m[2])))
        cur = None
        continue
    if cur is None:
        cur = (seg, n, [], [n])
        chunks.append(cur)
    ss = statement(line, n, None, prev)
    prev = ss[-1] if ss else prev
    cur[2].append((ss, n))
    cur[3][0] = n

print('''(** Generated by tools/gen_player.py: player/main.s, one term per source line
    (given as a comment).  Left out: .include, .DEBUGINFO, .proc; the macros
    ticklabel and tickident (472-478) only build label names. *)
From Verif Require Import Base AsmModel.
''')
assert all(l in open("/verif/rocq/theories/AsmModel.v").read() for l in named), [l for l in named]
for (name, first, last, its) in macros:
    if name in ("ticklabel", "tickident"):
        continue
    if name == "op_tick":
        print("(** main.s %d-%d: [.macro op_tick page] *)" % (first, last))
        print("Definition op_tick (page : Z) : list stmt :=\n  %s.\n" % " ++ ".join(its))
    else:
        emit(name, " (page : Z)", its, first, last, ": [.macro %s page]" % name)
order = {"LOWCODE": [], "HGR": [], "CODE": []}
k = 0
for c in chunks:
    if c[3][0] == "macro":
        order[c[0]].append(("(%s %s)" % (c[3][1], c[3][2]), c[1]))
    else:
        k += 1
        nm = "%s_%d" % (c[0].lower(), k)
        emit(nm, "", c[2], c[1], c[3][0], ", segment " + c[0])
        order[c[0]].append((nm, c[1]))
for s, cs in order.items():
    print("(** the segment %s (%s) *)" % (s, ", ".join(str(n) for _, n in cs)))
    print("Definition %s : list stmt :=\n  %s.\n" % (s.lower(), " ++\n  ".join(x for x, _ in cs)))
sys.stderr.write(" | ".join(named) + "\n")
