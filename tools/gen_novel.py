"""Generate theories/NovelModel.v (records with setters)."""
OS='option str'
recs=[
("note","BasicElement","src/pywriter/model/basic_element.py 17-27 BasicElement","mkNote","pn_",[
 ("title",OS),("desc",OS),("kw","dict (option str)")]),
("world","WorldElement","src/pywriter/model/world_element.py 19-33 WorldElement","mkWorld","we_",[
 ("title",OS),("desc",OS),("kw","dict (option str)"),("image",OS),("tags","option (list str)"),("aka",OS)]),
("character","Character","src/pywriter/model/character.py 23-40 Character","mkCharacter","cr_",[
 ("title",OS),("desc",OS),("kw","dict (option str)"),("image",OS),("tags","option (list str)"),("aka",OS),
 ("notes",OS),("bio",OS),("goals",OS),("fullName",OS),("isMajor","option bool")]),
("scene","Scene","src/pywriter/model/scene.py 79-215 Scene.__init__","mkScene","sc_",[
 ("title",OS),("desc",OS),("kw","dict (option str)"),("content",OS),("wordCount","nat"),("letterCount","nat"),
 ("type","option N"),("doNotExport","option bool"),("status","option Z"),("notes",OS),("tags","option (list str)"),
 ("field1",OS),("field2",OS),("field3",OS),("field4",OS),("appendToPrev","option bool"),
 ("isReactionScene","option bool"),("isSubPlot","option bool"),("goal",OS),("conflict",OS),("outcome",OS),
 ("characters","option (list str)"),("locations","option (list str)"),("items","option (list str)"),
 ("date",OS),("time",OS),("day",OS),("lastsMinutes",OS),("lastsHours",OS),("lastsDays",OS),("image",OS),
 ("scnArcs",OS),("scnMode","option Z")]),
("chapter","Chapter","src/pywriter/model/chapter.py 22-83 Chapter.__init__","mkChapter","ch_",[
 ("title",OS),("desc",OS),("kw","dict (option str)"),("level","option N"),("type","option N"),
 ("suppressTitle","option bool"),("isTrash","option bool"),("suppressBreak","option bool"),("srtScenes","list str")]),
("novel","Novel","src/pywriter/model/novel.py 46-136 Novel.__init__","mkNovel","nv_",[
 ("title",OS),("desc",OS),("kw","dict (option str)"),("authorName",OS),("authorBio",OS),
 ("fieldTitle1",OS),("fieldTitle2",OS),("fieldTitle3",OS),("fieldTitle4",OS),
 ("wordTarget","option Z"),("wordCountStart","option Z"),
 ("chapters","dict chapter"),("scenes","dict scene"),("languages","option (list str)"),("srtChapters","list str"),
 ("locations","dict world"),("srtLocations","list str"),("items","dict world"),("srtItems","list str"),
 ("characters","dict character"),("srtCharacters","list str"),("projectNotes","dict note"),("srtPrjNotes","list str"),
 ("languageCode",OS),("countryCode",OS)]),
]
default={OS:"None","dict (option str)":"[]","option (list str)":"None","option bool":"None","nat":"0","option N":"None","option Z":"None","list str":"[]",
 "dict chapter":"[]","dict scene":"[]","dict world":"[]","dict character":"[]","dict note":"[]"}
o=["""(** GENERATED by tools/gen_novel.py.  The data model: src/pywriter/model/*.py.
    Attributes are the instance variables of the Python classes, [None] being Python's None.
    Simplifications: the types 0..3 of chapters and scenes and the level 0/1 are natural numbers;
    word and letter count are natural numbers. *)
From Coq Require Import List NArith ZArith Bool.
From Verif Require Import PyStr PyDict.
Import ListNotations.
"""]
for name,cls,cite,mk,pre,fields in recs:
    o.append(f"(** {cite} *)")
    o.append(f"Record {name} := {mk} {{\n  " + ";\n  ".join(f"{pre}{f} : {t}" for f,t in fields)+" }.")
    o.append(f"(** {cls}() with all attributes at their initial values ({cite}) *)")
    o.append(f"Definition new_{name} : {name} :=\n  {mk} " + " ".join(default[t] for f,t in fields)+".")
    for i,(f,t) in enumerate(fields):
        args=" ".join("v" if j==i else f"({pre}{g} x)" for j,(g,_) in enumerate(fields))
        o.append(f"Definition set_{pre}{f} (v : {t}) (x : {name}) : {name} :=\n  {mk} {args}.")
    o.append("")
open('/verif/rocq/theories/NovelModel.v','w').write("\n".join(o))
