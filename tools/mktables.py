"""Writes rocq/theories/JsTables.v from the text of derived_core_properties.py."""
import ast, os
src = "/repo/vanillaplusjs/build/js/derived_core_properties.py"
tree = ast.parse(open(src).read())
out = ["(** The tables of /repo/vanillaplusjs/build/js/derived_core_properties.py, written by",
       "    tools/mktables.py from the text of that file.  A [\\u] in a python string takes four",
       "    digits, so a five digit code point in the file is two characters of the set. *)",
       "From Coq Require Import List NArith.", "Import ListNotations.", "Open Scope N_scope.", ""]
def wrap(items):
    lines, cur = [], "  "
    for i, x in enumerate(items):
        cur += x + ("; " if i + 1 < len(items) else "")
        if len(cur) > 110:
            lines.append(cur.rstrip()); cur = "  "
    lines.append(cur)
    return "\n".join(lines)
for node in tree.body:
    name = node.targets[0].id
    lines = "%d-%d" % (node.lineno, node.end_lineno)
    out.append("(** %s, lines %s *)" % (name, lines))
    if name.startswith("EXACT"):
        text = ast.literal_eval(node.value.args[0])
        out.append("Definition %s : list N := [\n%s]." % (name.lower(), wrap([str(ord(c)) for c in text])))
    else:
        pairs = ast.literal_eval(node.value)
        out.append("Definition %s : list (N * N) := [\n%s]." % (name.lower(), wrap(["(%d, %d)" % p for p in pairs])))
    out.append("")
open(os.path.join(os.path.dirname(__file__), "../rocq/theories/JsTables.v"), "w").write("\n".join(out))
