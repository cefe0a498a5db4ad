#!/usr/bin/env python3
"""Write rocq/theories/Templates.v: the class attributes of the exporters (string templates), copied from /repo as text.

The sources are parsed (ast), not run.  _('...') is taken as the English text."""
import ast, os, sys
SRC = '/repo/src/pywriter/'
FILES = ['file/file_export.py', 'odf/odf_file.py', 'ods_w/ods_writer.py', 'odt_w/odt_writer.py', 'odt_w/odt_w_formatted.py',
         'ods_w/ods_w_charlist.py', 'ods_w/ods_w_loclist.py', 'ods_w/ods_w_itemlist.py', 'ods_w/ods_w_scenelist.py',
         'odt_w/odt_w_manuscript.py', 'odt_w/odt_w_notes.py', 'odt_w/odt_w_todo.py', 'odt_w/odt_w_scenedesc.py',
         'odt_w/odt_w_chapterdesc.py', 'odt_w/odt_w_partdesc.py', 'odt_w/odt_w_brief_synopsis.py', 'odt_w/odt_w_characters.py',
         'odt_w/odt_w_locations.py', 'odt_w/odt_w_items.py', 'odt_w/odt_w_proof.py', 'odt_w/odt_w_export.py', 'odt_w/odt_w_xref.py']
FIELDS = ['fileHeader', 'part', 'chapter', 'notesPart', 'todoPart', 'notesChapter', 'todoChapter', 'unusedChapter', 'notExportedChapter',
          'scene', 'firstScene', 'appendedScene', 'notesScene', 'todoScene', 'unusedScene', 'notExportedScene', 'divider',
          'chapterEnd', 'unusedChapterEnd', 'notExportedChapterEnd', 'notesChapterEnd', 'todoChapterEnd',
          'characterHeading', 'character', 'locationHeading', 'location', 'itemHeading', 'item', 'fileFooter', 'projectNote']
ATTR = {'fileHeader': '_fileHeader', 'divider': '_sceneDivider', 'fileFooter': '_fileFooter', 'characterHeading': '_characterSectionHeading',
        'locationHeading': '_locationSectionHeading', 'itemHeading': '_itemSectionHeading'}
EXPORTERS = ['OdsWCharList', 'OdsWLocList', 'OdsWItemList', 'OdsWSceneList', 'OdtWManuscript', 'OdtWNotes', 'OdtWTodo', 'OdtWSceneDesc', 'OdtWChapterDesc',
             'OdtWPartDesc', 'OdtWBriefSynopsis', 'OdtWCharacters', 'OdtWLocations', 'OdtWItems', 'OdtWProof', 'OdtWExport', 'OdtWXref']
classes = {}   # name -> (bases, {attr: (value, file, lo, hi)})

def look(cls, attr):
    own = classes[cls][1]
    if attr in own:
        return own[attr]
    for b in classes[cls][0]:
        if b in classes:
            v = look(b, attr)
            if v is not None:
                return v
    return None

def ev(node, cls, local):
    if isinstance(node, ast.Constant) and isinstance(node.value, str):
        return node.value
    if isinstance(node, ast.JoinedStr):
        return ''.join(ev(v.value if isinstance(v, ast.FormattedValue) else v, cls, local) for v in node.values)
    if isinstance(node, ast.Name):
        return local[node.id][0]
    if isinstance(node, ast.Attribute) and isinstance(node.value, ast.Name):
        return look(node.value.id, node.attr)[0]
    if isinstance(node, ast.BinOp) and isinstance(node.op, ast.Add):
        return ev(node.left, cls, local) + ev(node.right, cls, local)
    if isinstance(node, ast.Call) and isinstance(node.func, ast.Name) and node.func.id == '_':
        return ev(node.args[0], cls, local)
    raise KeyError(ast.dump(node)[:100])

for f in FILES:
    tree = ast.parse(open(SRC + f, encoding='utf-8').read())
    for c in tree.body:
        if isinstance(c, ast.ClassDef):
            local = {}
            classes[c.name] = ([b.id for b in c.bases if isinstance(b, ast.Name)], local)
            for st in c.body:
                if isinstance(st, ast.Assign) and len(st.targets) == 1 and isinstance(st.targets[0], ast.Name):
                    try:
                        local[st.targets[0].id] = (ev(st.value, c.name, local), f, st.lineno, st.end_lineno)
                    except (KeyError, TypeError):
                        pass

def lit(t):
    assert all(ord(c) < 128 for c in t), t
    return '(s "' + t.replace('"', '""') + '")' if t else '[]'

out = ['''(** GENERATED by tools/gen_templates.py: the string templates of the exporters, copied from the class attributes in src/pywriter.
    Simplification: the translatable parts, given as calls of the translation function, are the English texts. *)
From Coq Require Import String List NArith.
From Verif Require Import PyStr PyDict NovelModel Export.
Import ListNotations.
''']
done = {}
for cls in EXPORTERS:
    vals = []
    for fld in FIELDS:
        attr = ATTR.get(fld, '_' + fld + 'Template')
        v = look(cls, attr)
        if v is None or v[0] == '':
            vals.append('[]')
            continue
        key = (v[1], v[2])
        if key not in done:
            name = f'{cls}_{fld}'
            done[key] = name
            out.append(f'(** src/pywriter/{v[1]} {v[2]}-{v[3]} {attr} *)\nDefinition {name} : str := {lit(v[0])}.\n')
        vals.append(done[key])
    import re
    f = classes[cls]
    out.append(f'''(** class {cls}: its templates; the filters accept everything (src/pywriter/file/filter.py 22-32) *)
Definition {cls}_with mh mc ms mp ml mi mo : exporter :=
  mkExporter {" ".join(vals)}
  (fun _ => true) (fun _ => true) (fun _ => true) (fun _ => true) (fun _ => true) mh mc ms mp ml mi mo.
''')
open('/verif/rocq/theories/Templates.v', 'w').write('\n'.join(out))
