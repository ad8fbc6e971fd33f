#!/usr/bin/env python3
"""Generate the property-only files from the proof files.

In XThms.v every `Lemma NAME_proof : STATEMENT.` becomes, in PropX.v,
`Theorem NAME : STATEMENT. Proof. exact NAME_proof. Qed. Print Assumptions NAME.`
followed by the text of the next `(*@ex ... *)` comment (the non-vacuity example).
Text of `(*@doc ... *)` comments is copied as a comment in front of the theorem.
Run it from /verif:  python3 tools/genprops.py
"""
import re, glob, os
root = os.path.join(os.path.dirname(os.path.abspath(__file__)), '..', 'rocq', 'theories')
pat = re.compile(r'\(\*@doc(?P<doc>.*?)@\*\)'
                 r'|^Lemma (?P<name>\w+)_proof\s*:(?P<stmt>.*?)\nProof\.'
                 r'|\(\*@ex(?P<ex>.*?)@\*\)'
                 r'|\(\*@imports(?P<imp>.*?)@\*\)', re.S | re.M)
for f in sorted(glob.glob(os.path.join(root, '*Thms.v'))):
    base = os.path.basename(f)[:-len('Thms.v')]
    s = open(f).read()
    out = []
    imports = ''
    for m in pat.finditer(s):
        if m.group('imp') is not None:
            imports = m.group('imp').strip()
        elif m.group('doc') is not None:
            out.append('(** ' + m.group('doc').strip() + ' *)')
        elif m.group('name') is not None:
            n = m.group('name')
            out.append('Theorem %s :%s\nProof. exact %s_proof. Qed.\nPrint Assumptions %s.\n'
                       % (n, m.group('stmt'), n, n))
        else:
            out.append(m.group('ex').strip() + '\n')
    head = ('(** Property statements; each is proved in %sThms.v under the same name.\n'
            '    Written by tools/genprops.py. *)\n' % base)
    text = head + imports + '\n\n' + '\n'.join(out)
    p = os.path.join(root, 'Prop%s.v' % base)
    if not os.path.exists(p) or open(p).read() != text:
        open(p, 'w').write(text)
        print('wrote', os.path.relpath(p))
