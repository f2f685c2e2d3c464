#!/usr/bin/env python3
"""Generates rocq/theories/HuffmanTable.v, StaticTable.v and StatusText.v from the ion sources.

Usage: gen_tables.py /repo /verif/rocq/theories
Only copies table entries and fixed text; the proofs check their properties."""
import re, sys
repo, out = sys.argv[1], sys.argv[2]

src = open(repo + '/lib/hpack/huffman_codes.h').read()
body = src[src.index('HUFFMAN_CODES'):]
codes = [(int(a, 16), int(b)) for a, b in re.findall(r'\{\s*(0x[0-9a-fA-F]+)\s*,\s*(\d+)\s*\}', body)]
assert len(codes) == 256, len(codes)
with open(out + '/HuffmanTable.v', 'w') as f:
    f.write('(** Generated by gen/gen_tables.py from lib/hpack/huffman_codes.h:11-63\n'
            '    (HUFFMAN_CODES): (lsb_aligned_code, code_len) for each octet. *)\n'
            'From Verif Require Import Base.\n\n(** HUFFMAN_CODES, huffman_codes.h:11-63. *)\nDefinition HUFFMAN_CODES : list (Z * Z) := [\n')
    for i in range(0, 256, 6):
        f.write('  ' + '; '.join('(%d, %d)' % c for c in codes[i:i+6]) + (';' if i + 6 < 256 else '') + '\n')
    f.write('].\n')

src = open(repo + '/lib/hpack/header_static_table.h').read()
body = src[src.index('STATIC_TABLE'):]
rows = re.findall(r'\{"([^"]*)",\s*"([^"]*)"\}', body)
assert len(rows) == 61, len(rows)
with open(out + '/StaticTable.v', 'w') as f:
    f.write('(** Generated by gen/gen_tables.py from lib/hpack/header_static_table.h:9-70\n'
            '    (STATIC_TABLE). *)\n'
            'From Verif Require Import Base.\n\n(** STATIC_TABLE, header_static_table.h:9-70. *)\nDefinition STATIC_TABLE : list header := [\n')
    f.write(';\n'.join('  Hdr (str "%s") (str "%s")' % r for r in rows))
    f.write('\n].\n')

src = open(repo + '/app/status_page.cpp', 'rb').read()
pieces = re.findall(rb'R"html\((.*?)\)html"', src, re.S)
assert len(pieces) == 7, len(pieces)
names = ['HEAD', 'REQUESTS', 'LATENCY', 'CODES', 'VERSION', 'ID', 'TAIL']
with open(out + '/StatusText.v', 'w') as f:
    f.write('(** Generated by gen/gen_tables.py from app/status_page.cpp:49-237: the raw strings of\n'
            '    the page in order, as octets. *)\n'
            'From Verif Require Import Base.\n')
    for n, b in zip(names, pieces):
        f.write('\n(** status_page.cpp:49-237. *)\nDefinition TEXT_%s : bytes := [\n' % n)
        for i in range(0, len(b), 24):
            f.write('  ' + '; '.join('%d' % c for c in b[i:i+24]) + (';' if i + 24 < len(b) else '') + '\n')
        f.write('].\n')
