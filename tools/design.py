import json
plan=json.load(open('tools/plan.json'))
props=[json.loads(l) for l in open('properties.jsonl')]
cl={x['property']:x for x in json.load(open('MANIFEST.json'))['claims']}
out=[open('tools/design_head.md').read()+'## Plan and outcome per property','',
'One line each: how it was approached, then the outcome (the same text as in MANIFEST.json).','']
for p in props:
    i=p['id']; c=cl.get(i)
    o=f"*{c['status']}*"+(': '+c['note'] if c['note'] else '.') if c else ''
    out.append(f"* **{i} {p['title']}** - {plan.get(i,'')} {o}")
open('DESIGN.md','w').write('\n'.join(out)+'\n')
