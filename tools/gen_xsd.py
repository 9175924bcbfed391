#!/usr/bin/env python3
"""Writes the UCIS schema as a Coq term.
usage: gen_xsd.py /repo/src/ucis/xml/schema/ucis.xsd > rocq/theories/UcisXsd.v"""
import sys
import xml.etree.ElementTree as ET

XSD = '{http://www.w3.org/2001/XMLSchema}'
SIMPLE = {'string': 'SString', 'integer': 'SInteger', 'nonNegativeInteger': 'SNonNegative',
          'positiveInteger': 'SPositive', 'boolean': 'SBoolean', 'double': 'SDouble',
          'decimal': 'SDecimal', 'dateTime': 'SDateTime'}
root = ET.parse(sys.argv[1]).getroot()
q = lambda s: '"%s"' % s

def simple(name):
    return SIMPLE[name[len('xsd:'):]]

def attr(a):
    t = a.get('type')
    if t is None:
        r = a.find(XSD + 'simpleType').find(XSD + 'restriction')
        assert r.get('base') == 'xsd:string' and all(x.tag == XSD + 'enumeration' for x in r)
        t = '(SEnum [%s])' % '; '.join(q(x.get('value')) for x in r)
    else:
        t = simple(t)
    assert a.get('use') in (None, 'required') and a.get('fixed') is None
    return 'AttrDecl %s %s %s' % (q(a.get('name')), t, 'true' if a.get('use') == 'required' else 'false')

groups = {g.get('name'): [attr(a) for a in g] for g in root.findall(XSD + 'attributeGroup')}

def elem(e):
    assert e.tag == XSD + 'element'
    t = e.get('type')
    t = 'TSimple ' + simple(t) if t.startswith('xsd:') else 'TComplex ' + q(t)
    lo, hi = e.get('minOccurs', '1'), e.get('maxOccurs', '1')
    return 'ElemDecl %s (%s) %s %s' % (q(e.get('name')), t, lo, 'None' if hi == 'unbounded' else '(Some %s)' % hi)

def part(p):
    if p.tag == XSD + 'choice':
        assert not p.attrib and all(e.get('minOccurs') == '1' for e in p)
        return 'PChoice [%s]' % '; '.join(elem(e) for e in p)
    return 'POne (%s)' % elem(p)

def ctype(c):
    attrs, parts = [], []
    for x in c:
        if x.tag == XSD + 'sequence':
            assert not parts and not x.attrib
            parts = [part(p) for p in x]
        elif x.tag == XSD + 'attribute':
            attrs.append(attr(x))
        elif x.tag == XSD + 'attributeGroup':
            attrs += groups[x.get('ref')]
        else:
            assert False, x.tag
    ind = ';\n       '
    return 'CType\n      [%s]\n      [%s]\n      %s' % (ind.join(attrs), ind.join(parts), 'true' if c.get('mixed') == 'true' else 'false')

types = [(c.get('name'), ctype(c)) for c in root.findall(XSD + 'complexType')]
top = root.findall(XSD + 'element')
assert len(top) == 1 and top[0].get('name') == 'UCIS'
types.append(('UCIS', ctype(top[0].find(XSD + 'complexType'))))
for x in root:
    assert x.tag in (XSD + 'complexType', XSD + 'element', XSD + 'attributeGroup')

print('''(** The UCIS schema, src/ucis/xml/schema/ucis.xsd, one entry per complex type in
    the order of the file; the last is the type of the document element UCIS.
    Generated by tools/gen_xsd.py. *)
From Verif Require Import Base Dict Schema.
Local Open Scope string_scope.

Definition ucis_xsd : schema :=''')
print('  [' + ';\n   '.join('(%s, %s)' % (q(n), t) for n, t in types) + '].')
print('''
(** ucis/xml/__init__.py:41-62 validate_ucis_xml: a document is valid if its root
    is a valid UCIS element (namespaces are removed first). *)
Definition ucis_valid (doc : Xml.elem) : bool :=
  seqb (Xml.e_tag doc) "UCIS" && valid ucis_xsd (TComplex "UCIS") doc.''')
