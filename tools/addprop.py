#!/usr/bin/env python3
"""Append properties (JSON objects, one per line on stdin) to properties.jsonl."""
import sys, json
have = {json.loads(l)['id'] for l in open('properties.jsonl')}
with open('properties.jsonl', 'a') as f:
    for l in sys.stdin:
        if not l.strip():
            continue
        d = json.loads(l)
        assert list(d) == ['id', 'title', 'statement', 'quantifier', 'why_tests_cant', 'anchors'], list(d)
        assert d['id'] not in have
        f.write(json.dumps(d) + '\n')
