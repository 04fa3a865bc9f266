#!/usr/bin/env python3
"""Generate theories/Cryptocurrencies.v from the text of /repo/bip38/cryptocurrencies.py
(parsed with the ast module, never imported or executed)."""
import ast, sys
src = open('/repo/bip38/cryptocurrencies.py').read()
tree = ast.parse(src)
out = ['''(** * Cryptocurrencies: /repo/bip38/cryptocurrencies.py
    Generated from the source text by /verif/tools/gen_cryptocurrencies.py;
    every record cites the lines of its class. *)
From Verif Require Import Py.

(** A concrete subclass of ICryptocurrency: the NETWORKS dict in source order
    (name, (wif_prefix, address_prefix)) and the ALPHABET class attribute
    (None unless overridden, cryptocurrencies.py:12-15). *)
Record coin := {
  c_name : pystr;
  c_networks : list (pystr * (Z * Z));
  c_alphabet : option pystr
}.
''']
names = []
for node in tree.body:
    if not isinstance(node, ast.ClassDef) or node.name == 'ICryptocurrency': continue
    nets, alpha = None, None
    for st in node.body:
        assert isinstance(st, ast.Assign), ast.dump(st)
        t = st.targets[0].id
        v = ast.literal_eval(st.value)
        if t == 'NETWORKS': nets = v
        elif t == 'ALPHABET': alpha = v
        else: raise SystemExit(t)
    ns = []
    for k, d in nets.items():
        assert set(d) == {'wif_prefix', 'address_prefix'}, d
        ns.append('(str "%s", (%s, %s))' % (k, hex(d['wif_prefix']), hex(d['address_prefix'])))
    names.append(node.name)
    out.append('(** cryptocurrencies.py:%d-%d *)' % (node.lineno, node.end_lineno))
    out.append('Definition %s : coin := {| c_name := str "%s";\n  c_networks := [%s];\n  c_alphabet := %s |}.\n' % (
        'coin_'+node.name, node.name, ';\n                 '.join(ns), 'None' if alpha is None else 'Some (str "%s")' % alpha))
out.append('(** all classes, in source order *)')
out.append('Definition all_coins : list coin :=\n  [%s].' % ';\n   '.join('coin_'+n for n in names))
open('/verif/rocq/theories/Cryptocurrencies.v','w').write('\n'.join(out)+'\n')
print(len(names))
