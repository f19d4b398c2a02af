"""Writes rocq/theories/M_Resources.v from the resource files of /repo."""
import json

R = "/repo/sudachipy/resources/"
OUT = "/verif/rocq/theories/M_Resources.v"


def lit(s):
    return '"' + s.replace('"', '""') + '"'


def text(s):
    if all(32 <= ord(c) < 127 for c in s):
        return "lit " + lit(s)
    return "[" + "; ".join(hex(ord(c)) for c in s) + "]"


def value(v):
    if isinstance(v, bool):
        return "JBool " + str(v).lower()
    if isinstance(v, int):
        return "JNum %d" % v
    if isinstance(v, str):
        return "JStr (%s)" % text(v) if text(v).startswith("lit") else "JStr " + text(v)
    if isinstance(v, list):
        return "JList [" + "; ".join(value(x) for x in v) + "]"
    return "JObj [" + "; ".join("(%s, %s)" % (text(k), value(x)) for k, x in v.items()) + "]"


def raw(name):
    return open(R + name, encoding="utf-8", newline="").read()


def main():
    for n in ("char.def", "unk.def", "rewrite.def"):
        assert "\r" not in raw(n), n
    conf = json.load(open(R + "sudachi.json", encoding="utf-8"))
    out = ['''(** The resource files that come with the package, sudachipy/resources, and sudachi.json as
    json.load reads it.  Written by tools/resources.py from the files. *)
From Coq Require Import String Ascii List ZArith.
From Verif Require Import Base Utf8 M_Front M_Setup.
Import ListNotations.
Open Scope list_scope.
Open Scope Z_scope.

(** The bytes of a file that is written here as a string *)
Definition file_bytes (s : string) : bytes := map (fun a => Z.of_N (N_of_ascii a)) (list_ascii_of_string s).
Definition file_text (s : string) : text := match decode (file_bytes s) with Ok t => t | Err _ => [] end.

(** sudachipy/resources/sudachi.json *)
Definition shipped_settings : conf :=
  [''' + ";\n   ".join("(%s, %s)" % (text(k), value(v)) for k, v in conf.items()) + "].\n"]
    for n, d in (("char.def", "shipped_char_def"), ("unk.def", "shipped_unk_def"), ("rewrite.def", "shipped_rewrite_def")):
        out.append("(** sudachipy/resources/%s *)\nDefinition %s : text := file_text %s.\n" % (n, d, lit(raw(n))))
    open(OUT, "w").write("\n".join(out))


main()
