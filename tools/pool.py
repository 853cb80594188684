#!/usr/bin/env python3
"""Run the mutants of several files that are not yet in seeded/LOG.jsonl.  usage: pool.py N FILE..."""
import sys, json
from multiprocessing import Pool
sys.path.insert(0,'/verif/tools')
import mutate
if __name__=='__main__':
    done={json.loads(l).get('id') for l in open('/verif/seeded/LOG.jsonl')}
    todo=[m for f in sys.argv[2:] for m in json.load(open(f)) if m['id'] not in done]
    print(len(todo),'to run',flush=True)
    with Pool(int(sys.argv[1])) as p: p.map(mutate.run,todo,chunksize=1)
