#!/usr/bin/env python3
"""Write rocq/theories/GoSrc.v: the Go source files of the package, verbatim; RlSrc.v: machine.go.rl; DotSrc.v: docs/urn.dot; ToolsSrc.v: the two tools."""
import os
root = os.path.dirname(os.path.dirname(os.path.abspath(__file__)))
files = [('kind.go', 'kind_go'), ('parsing_mode.go', 'parsing_mode_go'), ('scim/schema/type.go', 'type_go'), ('scim.go', 'scim_go'),
         ('urn.go', 'urn_go'), ('urn8141.go', 'urn8141_go'), ('options.go', 'options_go'), ('machine.go', 'machine_go')]
def write(mod, what, files):
    out = ['(* GENERATED by gen/gen_src.py: %s of /repo, byte for byte (in a Coq string only\n   the quotation mark is doubled).  Long files are cut in pieces at line ends. *)' % what,
           'From Verif Require Import GoBase.', 'Local Open Scope string_scope.', '']
    for f, name in files:
        src = open(os.path.join('/repo', f), newline='').read()
        assert all(ord(c) < 128 for c in src), f
        lines = src.splitlines(keepends=True)
        parts = [''.join(lines[i:i + 250]) for i in range(0, len(lines), 250)]
        assert ''.join(parts) == src
        out.append('(* %s: %d lines *)' % (f, len(lines)))
        for i, p in enumerate(parts):
            out.append('Definition %s_%d : string := "%s".' % (name, i, p.replace('"', '""')))
        out.append('Definition %s : bytes := (%s)%%list.\n' % (name, ' ++ '.join('B %s_%d' % (name, i) for i in range(len(parts)))))
    open(os.path.join(root, 'rocq/theories/%s.v' % mod), 'w').write('\n'.join(out))
write('GoSrc', 'the Go files', files)
write('RlSrc', 'machine.go.rl', [('machine.go.rl', 'machine_go_rl')])
write('DotSrc', 'docs/urn.dot', [('docs/urn.dot', 'urn_dot')])
write('ToolsSrc', 'the tools', [('tools/snake2camel/snake2camel.go', 'snake2camel_go'), ('tools/removecomments/removecomments.go', 'removecomments_go')])
