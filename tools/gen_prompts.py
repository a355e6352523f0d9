"""Print the literal parts of the instruction templates in llm/instructions.py as Coq
definitions (used once to write PromptText.v)."""
import ast, sys

src = open(sys.argv[1]).read()
tree = ast.parse(src)
for fn in tree.body:
    if not isinstance(fn, ast.FunctionDef):
        continue
    ret = [x for x in fn.body if isinstance(x, ast.Return)][0]
    name = fn.name.replace("format_", "").replace("_instruction", "").replace("_verdicts", "")
    k = 0
    print("(* models: llm/instructions.py:%d-%d %s *)" % (ret.lineno, ret.end_lineno, fn.name))
    for part in ret.value.values:
        if isinstance(part, ast.Constant):
            assert all(ord(c) < 127 and (ord(c) >= 32 or c == "\n") for c in part.value)
            print('Definition t_%s_%d : text := lit "%s".' % (name, k, part.value.replace('"', '""')))
            k += 1
        else:
            assert part.conversion == -1 and part.format_spec is None
            print("(* {%s} *)" % part.value.id)
