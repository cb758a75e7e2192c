"""Turn the raw results of mutation runs (a file of JSON lines) into lines of seeded/LOG.jsonl.
usage: mutlog.py results.jsonl notes.json ; notes maps the claim text to {"tightened": [...], "note": "..."}"""
import sys,json
notes=json.load(open(sys.argv[2])) if len(sys.argv)>2 else {}
out=open('/verif/seeded/LOG.jsonl','a')
for l in open(sys.argv[1]):
    r=json.loads(l); m=r['mutation']
    ed=m.get('edits') or [(m['old'],m['new'])]
    claim=m['claim']; n=notes.get(claim,{})
    out.write(json.dumps({
      'definition': m['file']+'.v:'+m.get('def','?'),
      'edit': ' ; '.join('replaced `%s` by `%s`'%(' '.join(o.split()),' '.join(x.split())) for o,x in ed),
      'claim': claim,
      'theorems_failed': [t for t in r['failed'] if t!='(file)'],
      'lemmas_failed': r.get('broken',[]),
      'theorems_tightened': n.get('tightened',[]),
      'note': n.get('note','')})+'\n')
