"""Generates rocq/theories/PyUni.v from the Unicode data of the running CPython."""

import re
import sys
import unicodedata


def ranges(pred):
    out, start = [], None
    for c in range(0x110000):
        value = False if 0xD800 <= c <= 0xDFFF else pred(chr(c))
        if value and start is None:
            start = c
        if not value and start is not None:
            out.append((start, c - 1))
            start = None
    if start is not None:
        out.append((start, 0x10FFFF))
    return out


def final(s):
    return s.lower()[-1] == "ς"


def emit_ranges(name, doc, rs):
    print(f"(** {doc} *)")
    print(f"Definition {name} : list (N * N) :=")
    lines, cur = [], ""
    for i, (a, b) in enumerate(rs):
        cur += f"({a}, {b}){';' if i + 1 < len(rs) else ''} "
        if len(cur) > 100:
            lines.append(cur)
            cur = ""
    lines.append(cur)
    print("  [" + "\n   ".join(lines) + "].\n")


print("(** GENERATED by tools/gen_unicode.py from CPython %s (Unicode %s). *)" % (sys.version.split()[0], unicodedata.unidata_version))
print("From Coq Require Import List NArith.")
print("Import ListNotations.\nLocal Open Scope N_scope.\n")
emit_ranges("space_ranges", "[str.isspace], [\\s], the characters removed by [str.strip]", ranges(str.isspace))
emit_ranges("decimal_ranges", "[\\d]: Unicode category Nd; every range consists of complete decades", ranges(lambda c: re.match(r"\d", c) is not None))
emit_ranges("word_ranges", "[\\w]", ranges(lambda c: re.match(r"\w", c) is not None))
emit_ranges("upper_changes_ranges", "characters c with [c.upper() != c]", ranges(lambda c: c.upper() != c))
emit_ranges("cased_ranges", "cased and not case-ignorable characters (relevant for the final sigma rule)", ranges(lambda c: final(c + "Σ")))
emit_ranges("case_ignorable_ranges", "case-ignorable characters", ranges(lambda c: final("A" + c + "Σ") and not final(c + "Σ")))
emit_ranges(
    "lower_pairs",
    "characters whose lower case form is one other character (capital sigma U+03A3 and U+0130 are treated in PyStr)",
    [(c, ord(chr(c).lower())) for c in range(0x110000) if chr(c).lower() != chr(c) and len(chr(c).lower()) == 1 and c != 0x3A3],
)
