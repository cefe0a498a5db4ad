(** GENERATED by tools/gen_templates.py: the string templates of the exporters, copied from the class attributes in src/pywriter.
    Simplification: the translatable parts, given as calls of the translation function, are the English texts. *)
From Coq Require Import String List NArith.
From Verif Require Import PyStr PyDict NovelModel Export.
Import ListNotations.

(** src/pywriter/ods_w/ods_w_charlist.py 17-61 _fileHeader *)
Definition OdsWCharList_fileHeader : str := (s "<?xml version=""1.0"" encoding=""UTF-8""?>

<office:document-content xmlns:office=""urn:oasis:names:tc:opendocument:xmlns:office:1.0"" xmlns:style=""urn:oasis:names:tc:opendocument:xmlns:style:1.0"" xmlns:text=""urn:oasis:names:tc:opendocument:xmlns:text:1.0"" xmlns:table=""urn:oasis:names:tc:opendocument:xmlns:table:1.0"" xmlns:draw=""urn:oasis:names:tc:opendocument:xmlns:drawing:1.0"" xmlns:fo=""urn:oasis:names:tc:opendocument:xmlns:xsl-fo-compatible:1.0"" xmlns:xlink=""http://www.w3.org/1999/xlink"" xmlns:dc=""http://purl.org/dc/elements/1.1/"" xmlns:meta=""urn:oasis:names:tc:opendocument:xmlns:meta:1.0"" xmlns:number=""urn:oasis:names:tc:opendocument:xmlns:datastyle:1.0"" xmlns:presentation=""urn:oasis:names:tc:opendocument:xmlns:presentation:1.0"" xmlns:svg=""urn:oasis:names:tc:opendocument:xmlns:svg-compatible:1.0"" xmlns:chart=""urn:oasis:names:tc:opendocument:xmlns:chart:1.0"" xmlns:dr3d=""urn:oasis:names:tc:opendocument:xmlns:dr3d:1.0"" xmlns:math=""http://www.w3.org/1998/Math/MathML"" xmlns:form=""urn:oasis:names:tc:opendocument:xmlns:form:1.0"" xmlns:script=""urn:oasis:names:tc:opendocument:xmlns:script:1.0"" xmlns:ooo=""http://openoffice.org/2004/office"" xmlns:ooow=""http://openoffice.org/2004/writer"" xmlns:oooc=""http://openoffice.org/2004/calc"" xmlns:dom=""http://www.w3.org/2001/xml-events"" xmlns:xforms=""http://www.w3.org/2002/xforms"" xmlns:xsd=""http://www.w3.org/2001/XMLSchema"" xmlns:xsi=""http://www.w3.org/2001/XMLSchema-instance"" xmlns:rpt=""http://openoffice.org/2005/report"" xmlns:of=""urn:oasis:names:tc:opendocument:xmlns:of:1.2"" xmlns:xhtml=""http://www.w3.org/1999/xhtml"" xmlns:grddl=""http://www.w3.org/2003/g/data-view#"" xmlns:tableooo=""http://openoffice.org/2009/table"" xmlns:field=""urn:openoffice:names:experimental:ooo-ms-interop:xmlns:field:1.0"" office:version=""1.2"">
 <office:scripts/>
 <office:font-face-decls>
  <style:font-face style:name=""Segoe UI"" svg:font-family=""&apos;Segoe UI&apos;"" style:font-adornments=""Standard"" style:font-family-generic=""swiss"" style:font-pitch=""variable""/>
 </office:font-face-decls>
 <office:automatic-styles>
  <style:style style:name=""co1"" style:family=""table-column"">
   <style:table-column-properties fo:break-before=""auto"" style:column-width=""2.000cm""/>
  </style:style>
  <style:style style:name=""co2"" style:family=""table-column"">
   <style:table-column-properties fo:break-before=""auto"" style:column-width=""3.000cm""/>
  </style:style>
  <style:style style:name=""co3"" style:family=""table-column"">
   <style:table-column-properties fo:break-before=""auto"" style:column-width=""4.000cm""/>
  </style:style>
  <style:style style:name=""co4"" style:family=""table-column"">
   <style:table-column-properties fo:break-before=""auto"" style:column-width=""8.000cm""/>
  </style:style>
  <style:style style:name=""ro1"" style:family=""table-row"">
   <style:table-row-properties style:row-height=""1.157cm"" fo:break-before=""auto"" style:use-optimal-row-height=""true""/>
  </style:style>
  <style:style style:name=""ro2"" style:family=""table-row"">
   <style:table-row-properties style:row-height=""2.053cm"" fo:break-before=""auto"" style:use-optimal-row-height=""true""/>
  </style:style>
  <style:style style:name=""ta1"" style:family=""table"" style:master-page-name=""Default"">
   <style:table-properties table:display=""true"" style:writing-mode=""lr-tb""/>
  </style:style>
 </office:automatic-styles>
 <office:body>
  <office:spreadsheet>
   <table:table table:name=""Character list"" table:style-name=""ta1"" table:print=""false"">
    <table:table-column table:style-name=""co1"" table:default-cell-style-name=""Default""/>
    <table:table-column table:style-name=""co2"" table:default-cell-style-name=""Default""/>
    <table:table-column table:style-name=""co3"" table:default-cell-style-name=""Default""/>
    <table:table-column table:style-name=""co2"" table:default-cell-style-name=""Default""/>
    <table:table-column table:style-name=""co4"" table:number-columns-repeated=""3"" table:default-cell-style-name=""Default""/>
    <table:table-column table:style-name=""co2"" table:default-cell-style-name=""Default""/>
    <table:table-column table:style-name=""co3"" table:default-cell-style-name=""Default""/>
    <table:table-column table:style-name=""co4"" table:default-cell-style-name=""Default""/>
    <table:table-column table:style-name=""co1"" table:number-columns-repeated=""1014"" table:default-cell-style-name=""Default""/>
     <table:table-row table:style-name=""ro1"">
     <table:table-cell table:style-name=""Heading"" office:value-type=""string"">
      <text:p>ID</text:p>
     </table:table-cell>
     <table:table-cell table:style-name=""Heading"" office:value-type=""string"">
      <text:p>Name</text:p>
     </table:table-cell>
     <table:table-cell table:style-name=""Heading"" office:value-type=""string"">
      <text:p>Full name</text:p>
     </table:table-cell>
     <table:table-cell table:style-name=""Heading"" office:value-type=""string"">
      <text:p>Aka</text:p>
     </table:table-cell>
     <table:table-cell table:style-name=""Heading"" office:value-type=""string"">
      <text:p>Description</text:p>
     </table:table-cell>
     <table:table-cell table:style-name=""Heading"" office:value-type=""string"">
      <text:p>Bio</text:p>
     </table:table-cell>
     <table:table-cell table:style-name=""Heading"" office:value-type=""string"">
      <text:p>Goals</text:p>
     </table:table-cell>
     <table:table-cell table:style-name=""Heading"" office:value-type=""string"">
      <text:p>Importance</text:p>
     </table:table-cell>
     <table:table-cell table:style-name=""Heading"" office:value-type=""string"">
      <text:p>Tags</text:p>
     </table:table-cell>
     <table:table-cell table:style-name=""Heading"" office:value-type=""string"">
      <text:p>Notes</text:p>
     </table:table-cell>
     <table:table-cell table:style-name=""Heading"" table:number-columns-repeated=""1014""/>
    </table:table-row>

").

(** src/pywriter/ods_w/ods_w_charlist.py 62-96 _characterTemplate *)
Definition OdsWCharList_character : str := (s "   <table:table-row table:style-name=""ro2"">
     <table:table-cell office:value-type=""string"">
      <text:p>CrID:$ID</text:p>
     </table:table-cell>
     <table:table-cell office:value-type=""string"">
      <text:p>$Title</text:p>
     </table:table-cell>
     <table:table-cell office:value-type=""string"">
      <text:p>$FullName</text:p>
     </table:table-cell>
     <table:table-cell office:value-type=""string"">
      <text:p>$AKA</text:p>
     </table:table-cell>
     <table:table-cell office:value-type=""string"">
      <text:p>$Desc</text:p>
     </table:table-cell>
     <table:table-cell office:value-type=""string"">
      <text:p>$Bio</text:p>
     </table:table-cell>
     <table:table-cell office:value-type=""string"">
      <text:p>$Goals</text:p>
     </table:table-cell>
     <table:table-cell office:value-type=""string"">
      <text:p>$Status</text:p>
     </table:table-cell>
     <table:table-cell office:value-type=""string"">
      <text:p>$Tags</text:p>
     </table:table-cell>
     <table:table-cell office:value-type=""string"">
      <text:p>$Notes</text:p>
     </table:table-cell>
     <table:table-cell table:number-columns-repeated=""1014""/>
    </table:table-row>

").

(** src/pywriter/ods_w/ods_w_charlist.py 98-98 _fileFooter *)
Definition OdsWCharList_fileFooter : str := (s "   </table:table>
  </office:spreadsheet>
 </office:body>
</office:document-content>
").

(** class OdsWCharList: its templates; the filters accept everything (src/pywriter/file/filter.py 22-32) *)
Definition OdsWCharList_with mh mc ms mp ml mi mo : exporter :=
  mkExporter OdsWCharList_fileHeader [] [] [] [] [] [] [] [] [] [] [] [] [] [] [] [] [] [] [] [] [] [] OdsWCharList_character [] [] [] [] OdsWCharList_fileFooter []
  (fun _ => true) (fun _ => true) (fun _ => true) (fun _ => true) (fun _ => true) mh mc ms mp ml mi mo.

(** src/pywriter/ods_w/ods_w_loclist.py 16-42 _fileHeader *)
Definition OdsWLocList_fileHeader : str := (s "<?xml version=""1.0"" encoding=""UTF-8""?>

<office:document-content xmlns:office=""urn:oasis:names:tc:opendocument:xmlns:office:1.0"" xmlns:style=""urn:oasis:names:tc:opendocument:xmlns:style:1.0"" xmlns:text=""urn:oasis:names:tc:opendocument:xmlns:text:1.0"" xmlns:table=""urn:oasis:names:tc:opendocument:xmlns:table:1.0"" xmlns:draw=""urn:oasis:names:tc:opendocument:xmlns:drawing:1.0"" xmlns:fo=""urn:oasis:names:tc:opendocument:xmlns:xsl-fo-compatible:1.0"" xmlns:xlink=""http://www.w3.org/1999/xlink"" xmlns:dc=""http://purl.org/dc/elements/1.1/"" xmlns:meta=""urn:oasis:names:tc:opendocument:xmlns:meta:1.0"" xmlns:number=""urn:oasis:names:tc:opendocument:xmlns:datastyle:1.0"" xmlns:presentation=""urn:oasis:names:tc:opendocument:xmlns:presentation:1.0"" xmlns:svg=""urn:oasis:names:tc:opendocument:xmlns:svg-compatible:1.0"" xmlns:chart=""urn:oasis:names:tc:opendocument:xmlns:chart:1.0"" xmlns:dr3d=""urn:oasis:names:tc:opendocument:xmlns:dr3d:1.0"" xmlns:math=""http://www.w3.org/1998/Math/MathML"" xmlns:form=""urn:oasis:names:tc:opendocument:xmlns:form:1.0"" xmlns:script=""urn:oasis:names:tc:opendocument:xmlns:script:1.0"" xmlns:ooo=""http://openoffice.org/2004/office"" xmlns:ooow=""http://openoffice.org/2004/writer"" xmlns:oooc=""http://openoffice.org/2004/calc"" xmlns:dom=""http://www.w3.org/2001/xml-events"" xmlns:xforms=""http://www.w3.org/2002/xforms"" xmlns:xsd=""http://www.w3.org/2001/XMLSchema"" xmlns:xsi=""http://www.w3.org/2001/XMLSchema-instance"" xmlns:rpt=""http://openoffice.org/2005/report"" xmlns:of=""urn:oasis:names:tc:opendocument:xmlns:of:1.2"" xmlns:xhtml=""http://www.w3.org/1999/xhtml"" xmlns:grddl=""http://www.w3.org/2003/g/data-view#"" xmlns:tableooo=""http://openoffice.org/2009/table"" xmlns:field=""urn:openoffice:names:experimental:ooo-ms-interop:xmlns:field:1.0"" office:version=""1.2"">
 <office:scripts/>
 <office:font-face-decls>
  <style:font-face style:name=""Segoe UI"" svg:font-family=""&apos;Segoe UI&apos;"" style:font-adornments=""Standard"" style:font-family-generic=""swiss"" style:font-pitch=""variable""/>
 </office:font-face-decls>
 <office:automatic-styles>
  <style:style style:name=""co1"" style:family=""table-column"">
   <style:table-column-properties fo:break-before=""auto"" style:column-width=""2.000cm""/>
  </style:style>
  <style:style style:name=""co2"" style:family=""table-column"">
   <style:table-column-properties fo:break-before=""auto"" style:column-width=""3.000cm""/>
  </style:style>
  <style:style style:name=""co3"" style:family=""table-column"">
   <style:table-column-properties fo:break-before=""auto"" style:column-width=""4.000cm""/>
  </style:style>
  <style:style style:name=""co4"" style:family=""table-column"">
   <style:table-column-properties fo:break-before=""auto"" style:column-width=""8.000cm""/>
  </style:style>
  <style:style style:name=""ro1"" style:family=""table-row"">
   <style:table-row-properties style:row-height=""1.157cm"" fo:break-before=""auto"" style:use-optimal-row-height=""true""/>
  </style:style>
  <style:style style:name=""ro2"" style:family=""table-row"">
   <style:table-row-properties style:row-height=""2.053cm"" fo:break-before=""auto"" style:use-optimal-row-height=""true""/>
  </style:style>
  <style:style style:name=""ta1"" style:family=""table"" style:master-page-name=""Default"">
   <style:table-properties table:display=""true"" style:writing-mode=""lr-tb""/>
  </style:style>
 </office:automatic-styles>
 <office:body>
  <office:spreadsheet>
   <table:table table:name=""Location list"" table:style-name=""ta1"" table:print=""false"">
    <table:table-column table:style-name=""co1"" table:default-cell-style-name=""Default""/>
    <table:table-column table:style-name=""co3"" table:default-cell-style-name=""Default""/>
    <table:table-column table:style-name=""co4"" table:default-cell-style-name=""Default""/>
    <table:table-column table:style-name=""co2"" table:default-cell-style-name=""Default""/>
    <table:table-column table:style-name=""co3"" table:default-cell-style-name=""Default""/>
    <table:table-column table:style-name=""co1"" table:number-columns-repeated=""1014"" table:default-cell-style-name=""Default""/>
     <table:table-row table:style-name=""ro1"">
     <table:table-cell table:style-name=""Heading"" office:value-type=""string"">
      <text:p>ID</text:p>
     </table:table-cell>
     <table:table-cell table:style-name=""Heading"" office:value-type=""string"">
      <text:p>Name</text:p>
     </table:table-cell>
     <table:table-cell table:style-name=""Heading"" office:value-type=""string"">
      <text:p>Description</text:p>
     </table:table-cell>
     <table:table-cell table:style-name=""Heading"" office:value-type=""string"">
      <text:p>Aka</text:p>
     </table:table-cell>
     <table:table-cell table:style-name=""Heading"" office:value-type=""string"">
      <text:p>Tags</text:p>
     </table:table-cell>
     <table:table-cell table:style-name=""Heading"" table:number-columns-repeated=""1014""/>
    </table:table-row>

").

(** src/pywriter/ods_w/ods_w_loclist.py 44-63 _locationTemplate *)
Definition OdsWLocList_location : str := (s "   <table:table-row table:style-name=""ro2"">
     <table:table-cell office:value-type=""string"">
      <text:p>LcID:$ID</text:p>
     </table:table-cell>
     <table:table-cell office:value-type=""string"">
      <text:p>$Title</text:p>
     </table:table-cell>
     <table:table-cell office:value-type=""string"">
      <text:p>$Desc</text:p>
     </table:table-cell>
     <table:table-cell office:value-type=""string"">
      <text:p>$AKA</text:p>
     </table:table-cell>
     <table:table-cell office:value-type=""string"">
      <text:p>$Tags</text:p>
     </table:table-cell>
     <table:table-cell table:number-columns-repeated=""1014""/>
    </table:table-row>

").

(** src/pywriter/ods_w/ods_w_loclist.py 64-64 _fileFooter *)
Definition OdsWLocList_fileFooter : str := (s "   </table:table>
  </office:spreadsheet>
 </office:body>
</office:document-content>
").

(** class OdsWLocList: its templates; the filters accept everything (src/pywriter/file/filter.py 22-32) *)
Definition OdsWLocList_with mh mc ms mp ml mi mo : exporter :=
  mkExporter OdsWLocList_fileHeader [] [] [] [] [] [] [] [] [] [] [] [] [] [] [] [] [] [] [] [] [] [] [] [] OdsWLocList_location [] [] OdsWLocList_fileFooter []
  (fun _ => true) (fun _ => true) (fun _ => true) (fun _ => true) (fun _ => true) mh mc ms mp ml mi mo.

(** src/pywriter/ods_w/ods_w_itemlist.py 17-43 _fileHeader *)
Definition OdsWItemList_fileHeader : str := (s "<?xml version=""1.0"" encoding=""UTF-8""?>

<office:document-content xmlns:office=""urn:oasis:names:tc:opendocument:xmlns:office:1.0"" xmlns:style=""urn:oasis:names:tc:opendocument:xmlns:style:1.0"" xmlns:text=""urn:oasis:names:tc:opendocument:xmlns:text:1.0"" xmlns:table=""urn:oasis:names:tc:opendocument:xmlns:table:1.0"" xmlns:draw=""urn:oasis:names:tc:opendocument:xmlns:drawing:1.0"" xmlns:fo=""urn:oasis:names:tc:opendocument:xmlns:xsl-fo-compatible:1.0"" xmlns:xlink=""http://www.w3.org/1999/xlink"" xmlns:dc=""http://purl.org/dc/elements/1.1/"" xmlns:meta=""urn:oasis:names:tc:opendocument:xmlns:meta:1.0"" xmlns:number=""urn:oasis:names:tc:opendocument:xmlns:datastyle:1.0"" xmlns:presentation=""urn:oasis:names:tc:opendocument:xmlns:presentation:1.0"" xmlns:svg=""urn:oasis:names:tc:opendocument:xmlns:svg-compatible:1.0"" xmlns:chart=""urn:oasis:names:tc:opendocument:xmlns:chart:1.0"" xmlns:dr3d=""urn:oasis:names:tc:opendocument:xmlns:dr3d:1.0"" xmlns:math=""http://www.w3.org/1998/Math/MathML"" xmlns:form=""urn:oasis:names:tc:opendocument:xmlns:form:1.0"" xmlns:script=""urn:oasis:names:tc:opendocument:xmlns:script:1.0"" xmlns:ooo=""http://openoffice.org/2004/office"" xmlns:ooow=""http://openoffice.org/2004/writer"" xmlns:oooc=""http://openoffice.org/2004/calc"" xmlns:dom=""http://www.w3.org/2001/xml-events"" xmlns:xforms=""http://www.w3.org/2002/xforms"" xmlns:xsd=""http://www.w3.org/2001/XMLSchema"" xmlns:xsi=""http://www.w3.org/2001/XMLSchema-instance"" xmlns:rpt=""http://openoffice.org/2005/report"" xmlns:of=""urn:oasis:names:tc:opendocument:xmlns:of:1.2"" xmlns:xhtml=""http://www.w3.org/1999/xhtml"" xmlns:grddl=""http://www.w3.org/2003/g/data-view#"" xmlns:tableooo=""http://openoffice.org/2009/table"" xmlns:field=""urn:openoffice:names:experimental:ooo-ms-interop:xmlns:field:1.0"" office:version=""1.2"">
 <office:scripts/>
 <office:font-face-decls>
  <style:font-face style:name=""Segoe UI"" svg:font-family=""&apos;Segoe UI&apos;"" style:font-adornments=""Standard"" style:font-family-generic=""swiss"" style:font-pitch=""variable""/>
 </office:font-face-decls>
 <office:automatic-styles>
  <style:style style:name=""co1"" style:family=""table-column"">
   <style:table-column-properties fo:break-before=""auto"" style:column-width=""2.000cm""/>
  </style:style>
  <style:style style:name=""co2"" style:family=""table-column"">
   <style:table-column-properties fo:break-before=""auto"" style:column-width=""3.000cm""/>
  </style:style>
  <style:style style:name=""co3"" style:family=""table-column"">
   <style:table-column-properties fo:break-before=""auto"" style:column-width=""4.000cm""/>
  </style:style>
  <style:style style:name=""co4"" style:family=""table-column"">
   <style:table-column-properties fo:break-before=""auto"" style:column-width=""8.000cm""/>
  </style:style>
  <style:style style:name=""ro1"" style:family=""table-row"">
   <style:table-row-properties style:row-height=""1.157cm"" fo:break-before=""auto"" style:use-optimal-row-height=""true""/>
  </style:style>
  <style:style style:name=""ro2"" style:family=""table-row"">
   <style:table-row-properties style:row-height=""2.053cm"" fo:break-before=""auto"" style:use-optimal-row-height=""true""/>
  </style:style>
  <style:style style:name=""ta1"" style:family=""table"" style:master-page-name=""Default"">
   <style:table-properties table:display=""true"" style:writing-mode=""lr-tb""/>
  </style:style>
 </office:automatic-styles>
 <office:body>
  <office:spreadsheet>
   <table:table table:name=""Item list"" table:style-name=""ta1"" table:print=""false"">
    <table:table-column table:style-name=""co1"" table:default-cell-style-name=""Default""/>
    <table:table-column table:style-name=""co3"" table:default-cell-style-name=""Default""/>
    <table:table-column table:style-name=""co4"" table:default-cell-style-name=""Default""/>
    <table:table-column table:style-name=""co2"" table:default-cell-style-name=""Default""/>
    <table:table-column table:style-name=""co3"" table:default-cell-style-name=""Default""/>
    <table:table-column table:style-name=""co1"" table:number-columns-repeated=""1014"" table:default-cell-style-name=""Default""/>
     <table:table-row table:style-name=""ro1"">
     <table:table-cell table:style-name=""Heading"" office:value-type=""string"">
      <text:p>ID</text:p>
     </table:table-cell>
     <table:table-cell table:style-name=""Heading"" office:value-type=""string"">
      <text:p>Name</text:p>
     </table:table-cell>
     <table:table-cell table:style-name=""Heading"" office:value-type=""string"">
      <text:p>Description</text:p>
     </table:table-cell>
     <table:table-cell table:style-name=""Heading"" office:value-type=""string"">
      <text:p>Aka</text:p>
     </table:table-cell>
     <table:table-cell table:style-name=""Heading"" office:value-type=""string"">
      <text:p>Tags</text:p>
     </table:table-cell>
     <table:table-cell table:style-name=""Heading"" table:number-columns-repeated=""1014""/>
    </table:table-row>

").

(** src/pywriter/ods_w/ods_w_itemlist.py 45-64 _itemTemplate *)
Definition OdsWItemList_item : str := (s "   <table:table-row table:style-name=""ro2"">
     <table:table-cell office:value-type=""string"">
      <text:p>ItID:$ID</text:p>
     </table:table-cell>
     <table:table-cell office:value-type=""string"">
      <text:p>$Title</text:p>
     </table:table-cell>
     <table:table-cell office:value-type=""string"">
      <text:p>$Desc</text:p>
     </table:table-cell>
     <table:table-cell office:value-type=""string"">
      <text:p>$AKA</text:p>
     </table:table-cell>
     <table:table-cell office:value-type=""string"">
      <text:p>$Tags</text:p>
     </table:table-cell>
     <table:table-cell table:number-columns-repeated=""1014""/>
    </table:table-row>

").

(** src/pywriter/ods_w/ods_w_itemlist.py 66-66 _fileFooter *)
Definition OdsWItemList_fileFooter : str := (s "   </table:table>
  </office:spreadsheet>
 </office:body>
</office:document-content>
").

(** class OdsWItemList: its templates; the filters accept everything (src/pywriter/file/filter.py 22-32) *)
Definition OdsWItemList_with mh mc ms mp ml mi mo : exporter :=
  mkExporter OdsWItemList_fileHeader [] [] [] [] [] [] [] [] [] [] [] [] [] [] [] [] [] [] [] [] [] [] [] [] [] [] OdsWItemList_item OdsWItemList_fileFooter []
  (fun _ => true) (fun _ => true) (fun _ => true) (fun _ => true) (fun _ => true) mh mc ms mp ml mi mo.

(** src/pywriter/ods_w/ods_w_scenelist.py 46-136 _fileHeader *)
Definition OdsWSceneList_fileHeader : str := (s "<?xml version=""1.0"" encoding=""UTF-8""?>

<office:document-content xmlns:office=""urn:oasis:names:tc:opendocument:xmlns:office:1.0"" xmlns:style=""urn:oasis:names:tc:opendocument:xmlns:style:1.0"" xmlns:text=""urn:oasis:names:tc:opendocument:xmlns:text:1.0"" xmlns:table=""urn:oasis:names:tc:opendocument:xmlns:table:1.0"" xmlns:draw=""urn:oasis:names:tc:opendocument:xmlns:drawing:1.0"" xmlns:fo=""urn:oasis:names:tc:opendocument:xmlns:xsl-fo-compatible:1.0"" xmlns:xlink=""http://www.w3.org/1999/xlink"" xmlns:dc=""http://purl.org/dc/elements/1.1/"" xmlns:meta=""urn:oasis:names:tc:opendocument:xmlns:meta:1.0"" xmlns:number=""urn:oasis:names:tc:opendocument:xmlns:datastyle:1.0"" xmlns:presentation=""urn:oasis:names:tc:opendocument:xmlns:presentation:1.0"" xmlns:svg=""urn:oasis:names:tc:opendocument:xmlns:svg-compatible:1.0"" xmlns:chart=""urn:oasis:names:tc:opendocument:xmlns:chart:1.0"" xmlns:dr3d=""urn:oasis:names:tc:opendocument:xmlns:dr3d:1.0"" xmlns:math=""http://www.w3.org/1998/Math/MathML"" xmlns:form=""urn:oasis:names:tc:opendocument:xmlns:form:1.0"" xmlns:script=""urn:oasis:names:tc:opendocument:xmlns:script:1.0"" xmlns:ooo=""http://openoffice.org/2004/office"" xmlns:ooow=""http://openoffice.org/2004/writer"" xmlns:oooc=""http://openoffice.org/2004/calc"" xmlns:dom=""http://www.w3.org/2001/xml-events"" xmlns:xforms=""http://www.w3.org/2002/xforms"" xmlns:xsd=""http://www.w3.org/2001/XMLSchema"" xmlns:xsi=""http://www.w3.org/2001/XMLSchema-instance"" xmlns:rpt=""http://openoffice.org/2005/report"" xmlns:of=""urn:oasis:names:tc:opendocument:xmlns:of:1.2"" xmlns:xhtml=""http://www.w3.org/1999/xhtml"" xmlns:grddl=""http://www.w3.org/2003/g/data-view#"" xmlns:tableooo=""http://openoffice.org/2009/table"" xmlns:field=""urn:openoffice:names:experimental:ooo-ms-interop:xmlns:field:1.0"" office:version=""1.2"">
 <office:scripts/>
 <office:font-face-decls>
  <style:font-face style:name=""Segoe UI"" svg:font-family=""&apos;Segoe UI&apos;"" style:font-adornments=""Standard"" style:font-family-generic=""swiss"" style:font-pitch=""variable""/>
 </office:font-face-decls>
 <office:automatic-styles>
  <style:style style:name=""co1"" style:family=""table-column"">
   <style:table-column-properties fo:break-before=""auto"" style:column-width=""2.000cm""/>
  </style:style>
  <style:style style:name=""co2"" style:family=""table-column"">
   <style:table-column-properties fo:break-before=""auto"" style:column-width=""3.000cm""/>
  </style:style>
  <style:style style:name=""co3"" style:family=""table-column"">
   <style:table-column-properties fo:break-before=""auto"" style:column-width=""4.000cm""/>
  </style:style>
  <style:style style:name=""co4"" style:family=""table-column"">
   <style:table-column-properties fo:break-before=""auto"" style:column-width=""8.000cm""/>
  </style:style>
  <style:style style:name=""ro1"" style:family=""table-row"">
   <style:table-row-properties style:row-height=""1.157cm"" fo:break-before=""auto"" style:use-optimal-row-height=""true""/>
  </style:style>
  <style:style style:name=""ro2"" style:family=""table-row"">
   <style:table-row-properties style:row-height=""2.053cm"" fo:break-before=""auto"" style:use-optimal-row-height=""true""/>
  </style:style>
  <style:style style:name=""ta1"" style:family=""table"" style:master-page-name=""Default"">
   <style:table-properties table:display=""true"" style:writing-mode=""lr-tb""/>
  </style:style>
 </office:automatic-styles>
 <office:body>
  <office:spreadsheet>
   <table:table table:name=""Scene list"" table:style-name=""ta1"" table:print=""false"">
    <table:table-column table:style-name=""co1"" table:default-cell-style-name=""Default""/>
    <table:table-column table:style-name=""co3"" table:default-cell-style-name=""Default""/>
    <table:table-column table:style-name=""co4"" table:default-cell-style-name=""Default""/>
    <table:table-column table:style-name=""co3"" table:default-cell-style-name=""Default""/>
    <table:table-column table:style-name=""co4"" table:default-cell-style-name=""Default""/>
    <table:table-column table:style-name=""co1"" table:default-cell-style-name=""Default""/>
    <table:table-column table:style-name=""co4"" table:default-cell-style-name=""Default""/>
    <table:table-column table:style-name=""co4"" table:default-cell-style-name=""Default""/>
    <table:table-column table:style-name=""co4"" table:default-cell-style-name=""Default""/>
    <table:table-column table:style-name=""co1"" table:default-cell-style-name=""Default""/>
    <table:table-column table:style-name=""co1"" table:default-cell-style-name=""Default""/>
    <table:table-column table:style-name=""co1"" table:default-cell-style-name=""Default""/>
    <table:table-column table:style-name=""co1"" table:default-cell-style-name=""Default""/>
    <table:table-column table:style-name=""co1"" table:default-cell-style-name=""Default""/>
    <table:table-column table:style-name=""co1"" table:default-cell-style-name=""Default""/>
    <table:table-column table:style-name=""co1"" table:default-cell-style-name=""Default""/>
    <table:table-column table:style-name=""co1"" table:default-cell-style-name=""Default""/>
    <table:table-column table:style-name=""co2"" table:default-cell-style-name=""Default""/>
    <table:table-column table:style-name=""co2"" table:default-cell-style-name=""Default""/>
    <table:table-column table:style-name=""co3"" table:default-cell-style-name=""Default""/>
    <table:table-column table:style-name=""co3"" table:default-cell-style-name=""Default""/>
    <table:table-column table:style-name=""co3"" table:default-cell-style-name=""Default""/>
    <table:table-row table:style-name=""ro1"">
     <table:table-cell table:style-name=""Heading"" office:value-type=""string"">
      <text:p>Scene link</text:p>
     </table:table-cell>
     <table:table-cell table:style-name=""Heading"" office:value-type=""string"">
      <text:p>Scene title</text:p>
     </table:table-cell>
     <table:table-cell table:style-name=""Heading"" office:value-type=""string"">
      <text:p>Scene description</text:p>
     </table:table-cell>
     <table:table-cell table:style-name=""Heading"" office:value-type=""string"">
      <text:p>Tags</text:p>
     </table:table-cell>
     <table:table-cell table:style-name=""Heading"" office:value-type=""string"">
      <text:p>Scene notes</text:p>
     </table:table-cell>
     <table:table-cell table:style-name=""Heading"" office:value-type=""string"">
      <text:p>A/R</text:p>
     </table:table-cell>
     <table:table-cell table:style-name=""Heading"" office:value-type=""string"">
      <text:p>Goal</text:p>
     </table:table-cell>
     <table:table-cell table:style-name=""Heading"" office:value-type=""string"">
      <text:p>Conflict</text:p>
     </table:table-cell>
     <table:table-cell table:style-name=""Heading"" office:value-type=""string"">
      <text:p>Outcome</text:p>
     </table:table-cell>
     <table:table-cell table:style-name=""Heading"" office:value-type=""string"">
      <text:p>Scene</text:p>
     </table:table-cell>
     <table:table-cell table:style-name=""Heading"" office:value-type=""string"">
      <text:p>Words total</text:p>
     </table:table-cell>
     <table:table-cell table:style-name=""Heading"" office:value-type=""string"">
      <text:p>$FieldTitle1</text:p>
     </table:table-cell>
     <table:table-cell table:style-name=""Heading"" office:value-type=""string"">
      <text:p>$FieldTitle2</text:p>
     </table:table-cell>
     <table:table-cell table:style-name=""Heading"" office:value-type=""string"">
      <text:p>$FieldTitle3</text:p>
     </table:table-cell>
     <table:table-cell table:style-name=""Heading"" office:value-type=""string"">
      <text:p>$FieldTitle4</text:p>
     </table:table-cell>
     <table:table-cell table:style-name=""Heading"" office:value-type=""string"">
      <text:p>Word count</text:p>
     </table:table-cell>
     <table:table-cell table:style-name=""Heading"" office:value-type=""string"">
      <text:p>Letter count</text:p>
     </table:table-cell>
     <table:table-cell table:style-name=""Heading"" office:value-type=""string"">
      <text:p>Status</text:p>
     </table:table-cell>
     <table:table-cell table:style-name=""Heading"" office:value-type=""string"">
      <text:p>Characters</text:p>
     </table:table-cell>
     <table:table-cell table:style-name=""Heading"" office:value-type=""string"">
      <text:p>Locations</text:p>
     </table:table-cell>
     <table:table-cell table:style-name=""Heading"" office:value-type=""string"">
      <text:p>Items</text:p>
     </table:table-cell>
     <table:table-cell table:style-name=""Heading"" table:number-columns-repeated=""1003""/>
    </table:table-row>

").

(** src/pywriter/ods_w/ods_w_scenelist.py 138-204 _sceneTemplate *)
Definition OdsWSceneList_scene : str := (s "   <table:table-row table:style-name=""ro2"">
     <table:table-cell table:formula=""of:=HYPERLINK(&quot;file:///$ProjectPath/${ProjectName}_manuscript.odt#ScID:$ID%7Cregion&quot;;&quot;ScID:$ID&quot;)"" office:value-type=""string"" office:string-value=""ScID:$ID"">
      <text:p>ScID:$ID</text:p>
     </table:table-cell>
     <table:table-cell office:value-type=""string"">
      <text:p>$Title</text:p>
     </table:table-cell>
     <table:table-cell office:value-type=""string"">
      <text:p>$Desc</text:p>
     </table:table-cell>
     <table:table-cell office:value-type=""string"">
      <text:p>$Tags</text:p>
     </table:table-cell>
     <table:table-cell office:value-type=""string"">
      <text:p>$Notes</text:p>
     </table:table-cell>
     <table:table-cell office:value-type=""string"">
      <text:p>$ReactionScene</text:p>
     </table:table-cell>
     <table:table-cell office:value-type=""string"">
      <text:p>$Goal</text:p>
     </table:table-cell>
     <table:table-cell office:value-type=""string"">
      <text:p>$Conflict</text:p>
     </table:table-cell>
     <table:table-cell office:value-type=""string"">
      <text:p>$Outcome</text:p>
     </table:table-cell>
     <table:table-cell office:value-type=""float"" office:value=""$SceneNumber"">
      <text:p>$SceneNumber</text:p>
     </table:table-cell>
     <table:table-cell office:value-type=""float"" office:value=""$WordsTotal"">
      <text:p>$WordsTotal</text:p>
     </table:table-cell>
     <table:table-cell office:value-type=""float"" office:value=""$Field1"">
      <text:p>$Field1</text:p>
     </table:table-cell>
     <table:table-cell office:value-type=""float"" office:value=""$Field2"">
      <text:p>$Field2</text:p>
     </table:table-cell>
     <table:table-cell office:value-type=""float"" office:value=""$Field3"">
      <text:p>$Field3</text:p>
     </table:table-cell>
     <table:table-cell office:value-type=""float"" office:value=""$Field4"">
      <text:p>$Field4</text:p>
     </table:table-cell>
     <table:table-cell office:value-type=""float"" office:value=""$WordCount"">
      <text:p>$WordCount</text:p>
     </table:table-cell>
     <table:table-cell office:value-type=""float"" office:value=""$LetterCount"">
      <text:p>$LetterCount</text:p>
     </table:table-cell>
     <table:table-cell office:value-type=""string"">
      <text:p>$Status</text:p>
     </table:table-cell>
     <table:table-cell office:value-type=""string"">
      <text:p>$Characters</text:p>
     </table:table-cell>
     <table:table-cell office:value-type=""string"">
      <text:p>$Locations</text:p>
     </table:table-cell>
     <table:table-cell>
      <text:p>$Items</text:p>
     </table:table-cell>
    </table:table-row>

").

(** src/pywriter/ods_w/ods_w_scenelist.py 206-206 _fileFooter *)
Definition OdsWSceneList_fileFooter : str := (s "   </table:table>
  </office:spreadsheet>
 </office:body>
</office:document-content>
").

(** class OdsWSceneList: its templates; the filters accept everything (src/pywriter/file/filter.py 22-32) *)
Definition OdsWSceneList_with mh mc ms mp ml mi mo : exporter :=
  mkExporter OdsWSceneList_fileHeader [] [] [] [] [] [] [] [] OdsWSceneList_scene [] [] [] [] [] [] [] [] [] [] [] [] [] [] [] [] [] [] OdsWSceneList_fileFooter []
  (fun _ => true) (fun _ => true) (fun _ => true) (fun _ => true) (fun _ => true) mh mc ms mp ml mi mo.

(** src/pywriter/odt_w/odt_w_manuscript.py 19-21 _fileHeader *)
Definition OdtWManuscript_fileHeader : str := (s "$ContentHeader<text:p text:style-name=""Title"">$Title</text:p>
<text:p text:style-name=""Subtitle"">$AuthorName</text:p>
").

(** src/pywriter/odt_w/odt_w_manuscript.py 23-25 _partTemplate *)
Definition OdtWManuscript_part : str := (s "<text:section text:style-name=""Sect1"" text:name=""ChID:$ID"">
<text:h text:style-name=""Heading_20_1"" text:outline-level=""1"">$Title</text:h>
").

(** src/pywriter/odt_w/odt_w_manuscript.py 27-29 _chapterTemplate *)
Definition OdtWManuscript_chapter : str := (s "<text:section text:style-name=""Sect1"" text:name=""ChID:$ID"">
<text:h text:style-name=""Heading_20_2"" text:outline-level=""2"">$Title</text:h>
").

(** src/pywriter/odt_w/odt_w_manuscript.py 31-35 _sceneTemplate *)
Definition OdtWManuscript_scene : str := (s "<text:h text:style-name=""Invisible_20_Heading_20_3"" text:outline-level=""3"">$Title</text:h>
<text:section text:style-name=""Sect1"" text:name=""ScID:$ID"">
<text:p text:style-name=""Text_20_body"">$SceneContent</text:p>
</text:section>
").

(** src/pywriter/odt_w/odt_w_manuscript.py 37-41 _appendedSceneTemplate *)
Definition OdtWManuscript_appendedScene : str := (s "<text:h text:style-name=""Invisible_20_Heading_20_3"" text:outline-level=""3"">$Title</text:h>
<text:section text:style-name=""Sect1"" text:name=""ScID:$ID"">
<text:p text:style-name=""First_20_line_20_indent"">$SceneContent</text:p>
</text:section>
").

(** src/pywriter/odt_w/odt_w_manuscript.py 43-43 _sceneDivider *)
Definition OdtWManuscript_divider : str := (s "<text:p text:style-name=""Heading_20_4"">* * *</text:p>
").

(** src/pywriter/odt_w/odt_w_manuscript.py 45-46 _chapterEndTemplate *)
Definition OdtWManuscript_chapterEnd : str := (s "</text:section>
").

(** src/pywriter/odt_w/odt_w_manuscript.py 48-48 _fileFooter *)
Definition OdtWManuscript_fileFooter : str := (s "  </office:text>
 </office:body>
</office:document-content>
").

(** class OdtWManuscript: its templates; the filters accept everything (src/pywriter/file/filter.py 22-32) *)
Definition OdtWManuscript_with mh mc ms mp ml mi mo : exporter :=
  mkExporter OdtWManuscript_fileHeader OdtWManuscript_part OdtWManuscript_chapter [] [] [] [] [] [] OdtWManuscript_scene [] OdtWManuscript_appendedScene [] [] [] [] OdtWManuscript_divider OdtWManuscript_chapterEnd [] [] [] [] [] [] [] [] [] [] OdtWManuscript_fileFooter []
  (fun _ => true) (fun _ => true) (fun _ => true) (fun _ => true) (fun _ => true) mh mc ms mp ml mi mo.

(** src/pywriter/odt_w/odt_w_notes.py 26-28 _notesPartTemplate *)
Definition OdtWNotes_notesPart : str := (s "<text:section text:style-name=""Sect1"" text:name=""ChID:$ID"">
<text:h text:style-name=""Heading_20_1"" text:outline-level=""1"">$Title</text:h>
").

(** src/pywriter/odt_w/odt_w_notes.py 30-32 _notesChapterTemplate *)
Definition OdtWNotes_notesChapter : str := (s "<text:section text:style-name=""Sect1"" text:name=""ChID:$ID"">
<text:h text:style-name=""Heading_20_2"" text:outline-level=""2"">$Title</text:h>
").

(** src/pywriter/odt_w/odt_w_notes.py 34-38 _notesSceneTemplate *)
Definition OdtWNotes_notesScene : str := (s "<text:h text:style-name=""Heading_20_3"" text:outline-level=""3"">$Title</text:h>
<text:section text:style-name=""Sect1"" text:name=""ScID:$ID"">
<text:p text:style-name=""Text_20_body"">$SceneContent</text:p>
</text:section>
").

(** src/pywriter/odt_w/odt_w_notes.py 41-42 _notesChapterEndTemplate *)
Definition OdtWNotes_notesChapterEnd : str := (s "</text:section>
").

(** class OdtWNotes: its templates; the filters accept everything (src/pywriter/file/filter.py 22-32) *)
Definition OdtWNotes_with mh mc ms mp ml mi mo : exporter :=
  mkExporter OdtWManuscript_fileHeader [] [] OdtWNotes_notesPart [] OdtWNotes_notesChapter [] [] [] [] [] [] OdtWNotes_notesScene [] [] [] [] [] [] [] OdtWNotes_notesChapterEnd [] [] [] [] [] [] [] OdtWManuscript_fileFooter []
  (fun _ => true) (fun _ => true) (fun _ => true) (fun _ => true) (fun _ => true) mh mc ms mp ml mi mo.

(** src/pywriter/odt_w/odt_w_todo.py 26-28 _todoPartTemplate *)
Definition OdtWTodo_todoPart : str := (s "<text:section text:style-name=""Sect1"" text:name=""ChID:$ID"">
<text:h text:style-name=""Heading_20_1"" text:outline-level=""1"">$Title</text:h>
").

(** src/pywriter/odt_w/odt_w_todo.py 30-32 _todoChapterTemplate *)
Definition OdtWTodo_todoChapter : str := (s "<text:section text:style-name=""Sect1"" text:name=""ChID:$ID"">
<text:h text:style-name=""Heading_20_2"" text:outline-level=""2"">$Title</text:h>
").

(** src/pywriter/odt_w/odt_w_todo.py 34-38 _todoSceneTemplate *)
Definition OdtWTodo_todoScene : str := (s "<text:h text:style-name=""Heading_20_3"" text:outline-level=""3"">$Title</text:h>
<text:section text:style-name=""Sect1"" text:name=""ScID:$ID"">
<text:p text:style-name=""Text_20_body"">$SceneContent</text:p>
</text:section>
").

(** src/pywriter/odt_w/odt_w_todo.py 41-42 _todoChapterEndTemplate *)
Definition OdtWTodo_todoChapterEnd : str := (s "</text:section>
").

(** class OdtWTodo: its templates; the filters accept everything (src/pywriter/file/filter.py 22-32) *)
Definition OdtWTodo_with mh mc ms mp ml mi mo : exporter :=
  mkExporter OdtWManuscript_fileHeader [] [] [] OdtWTodo_todoPart [] OdtWTodo_todoChapter [] [] [] [] [] [] OdtWTodo_todoScene [] [] [] [] [] [] [] OdtWTodo_todoChapterEnd [] [] [] [] [] [] OdtWManuscript_fileFooter []
  (fun _ => true) (fun _ => true) (fun _ => true) (fun _ => true) (fun _ => true) mh mc ms mp ml mi mo.

(** src/pywriter/odt_w/odt_w_scenedesc.py 19-21 _fileHeader *)
Definition OdtWSceneDesc_fileHeader : str := (s "<?xml version=""1.0"" encoding=""UTF-8""?>

<office:document-content xmlns:office=""urn:oasis:names:tc:opendocument:xmlns:office:1.0"" xmlns:style=""urn:oasis:names:tc:opendocument:xmlns:style:1.0"" xmlns:text=""urn:oasis:names:tc:opendocument:xmlns:text:1.0"" xmlns:table=""urn:oasis:names:tc:opendocument:xmlns:table:1.0"" xmlns:draw=""urn:oasis:names:tc:opendocument:xmlns:drawing:1.0"" xmlns:fo=""urn:oasis:names:tc:opendocument:xmlns:xsl-fo-compatible:1.0"" xmlns:xlink=""http://www.w3.org/1999/xlink"" xmlns:dc=""http://purl.org/dc/elements/1.1/"" xmlns:meta=""urn:oasis:names:tc:opendocument:xmlns:meta:1.0"" xmlns:number=""urn:oasis:names:tc:opendocument:xmlns:datastyle:1.0"" xmlns:svg=""urn:oasis:names:tc:opendocument:xmlns:svg-compatible:1.0"" xmlns:chart=""urn:oasis:names:tc:opendocument:xmlns:chart:1.0"" xmlns:dr3d=""urn:oasis:names:tc:opendocument:xmlns:dr3d:1.0"" xmlns:math=""http://www.w3.org/1998/Math/MathML"" xmlns:form=""urn:oasis:names:tc:opendocument:xmlns:form:1.0"" xmlns:script=""urn:oasis:names:tc:opendocument:xmlns:script:1.0"" xmlns:ooo=""http://openoffice.org/2004/office"" xmlns:ooow=""http://openoffice.org/2004/writer"" xmlns:oooc=""http://openoffice.org/2004/calc"" xmlns:dom=""http://www.w3.org/2001/xml-events"" xmlns:xforms=""http://www.w3.org/2002/xforms"" xmlns:xsd=""http://www.w3.org/2001/XMLSchema"" xmlns:xsi=""http://www.w3.org/2001/XMLSchema-instance"" xmlns:rpt=""http://openoffice.org/2005/report"" xmlns:of=""urn:oasis:names:tc:opendocument:xmlns:of:1.2"" xmlns:xhtml=""http://www.w3.org/1999/xhtml"" xmlns:grddl=""http://www.w3.org/2003/g/data-view#"" xmlns:tableooo=""http://openoffice.org/2009/table"" xmlns:field=""urn:openoffice:names:experimental:ooo-ms-interop:xmlns:field:1.0"" office:version=""1.2"">
 <office:scripts/>
 <office:font-face-decls>
  <style:font-face style:name=""StarSymbol"" svg:font-family=""StarSymbol"" style:font-charset=""x-symbol""/>
  <style:font-face style:name=""Consolas"" svg:font-family=""Consolas"" style:font-adornments=""Standard"" style:font-family-generic=""modern"" style:font-pitch=""fixed""/>
  <style:font-face style:name=""Courier New"" svg:font-family=""&apos;Courier New&apos;"" style:font-adornments=""Standard"" style:font-family-generic=""modern"" style:font-pitch=""fixed""/>
 </office:font-face-decls>
 <office:automatic-styles/>
 <office:body>
  <office:text text:use-soft-page-breaks=""true"">

<text:p text:style-name=""Title"">$Title</text:p>
<text:p text:style-name=""Subtitle"">$AuthorName</text:p>
").

(** src/pywriter/odt_w/odt_w_scenedesc.py 23-25 _partTemplate *)
Definition OdtWSceneDesc_part : str := (s "<text:section text:style-name=""Sect1"" text:name=""ChID:$ID"">
<text:h text:style-name=""Heading_20_1"" text:outline-level=""1"">$Title</text:h>
").

(** src/pywriter/odt_w/odt_w_scenedesc.py 27-29 _chapterTemplate *)
Definition OdtWSceneDesc_chapter : str := (s "<text:section text:style-name=""Sect1"" text:name=""ChID:$ID"">
<text:h text:style-name=""Heading_20_2"" text:outline-level=""2""><text:a xlink:href=""../${ProjectName}_manuscript.odt#ChID:$ID%7Cregion"">$Title</text:a></text:h>
").

(** src/pywriter/odt_w/odt_w_scenedesc.py 31-35 _sceneTemplate *)
Definition OdtWSceneDesc_scene : str := (s "<text:h text:style-name=""Invisible_20_Heading_20_3"" text:outline-level=""3"">$Title</text:h>
<text:section text:style-name=""Sect1"" text:name=""ScID:$ID"">
<text:p text:style-name=""Text_20_body"">$Desc</text:p>
</text:section>
").

(** src/pywriter/odt_w/odt_w_scenedesc.py 37-41 _appendedSceneTemplate *)
Definition OdtWSceneDesc_appendedScene : str := (s "<text:h text:style-name=""Invisible_20_Heading_20_3"" text:outline-level=""3"">$Title</text:h>
<text:section text:style-name=""Sect1"" text:name=""ScID:$ID"">
<text:p text:style-name=""First_20_line_20_indent"">$Desc</text:p>
</text:section>
").

(** src/pywriter/odt_w/odt_w_scenedesc.py 43-44 _sceneDivider *)
Definition OdtWSceneDesc_divider : str := (s "<text:p text:style-name=""Heading_20_4"">* * *</text:p>
").

(** src/pywriter/odt_w/odt_w_scenedesc.py 46-47 _chapterEndTemplate *)
Definition OdtWSceneDesc_chapterEnd : str := (s "</text:section>
").

(** src/pywriter/odt_w/odt_w_scenedesc.py 49-49 _fileFooter *)
Definition OdtWSceneDesc_fileFooter : str := (s "  </office:text>
 </office:body>
</office:document-content>
").

(** class OdtWSceneDesc: its templates; the filters accept everything (src/pywriter/file/filter.py 22-32) *)
Definition OdtWSceneDesc_with mh mc ms mp ml mi mo : exporter :=
  mkExporter OdtWSceneDesc_fileHeader OdtWSceneDesc_part OdtWSceneDesc_chapter [] [] [] [] [] [] OdtWSceneDesc_scene [] OdtWSceneDesc_appendedScene [] [] [] [] OdtWSceneDesc_divider OdtWSceneDesc_chapterEnd [] [] [] [] [] [] [] [] [] [] OdtWSceneDesc_fileFooter []
  (fun _ => true) (fun _ => true) (fun _ => true) (fun _ => true) (fun _ => true) mh mc ms mp ml mi mo.

(** src/pywriter/odt_w/odt_w_chapterdesc.py 19-21 _fileHeader *)
Definition OdtWChapterDesc_fileHeader : str := (s "<?xml version=""1.0"" encoding=""UTF-8""?>

<office:document-content xmlns:office=""urn:oasis:names:tc:opendocument:xmlns:office:1.0"" xmlns:style=""urn:oasis:names:tc:opendocument:xmlns:style:1.0"" xmlns:text=""urn:oasis:names:tc:opendocument:xmlns:text:1.0"" xmlns:table=""urn:oasis:names:tc:opendocument:xmlns:table:1.0"" xmlns:draw=""urn:oasis:names:tc:opendocument:xmlns:drawing:1.0"" xmlns:fo=""urn:oasis:names:tc:opendocument:xmlns:xsl-fo-compatible:1.0"" xmlns:xlink=""http://www.w3.org/1999/xlink"" xmlns:dc=""http://purl.org/dc/elements/1.1/"" xmlns:meta=""urn:oasis:names:tc:opendocument:xmlns:meta:1.0"" xmlns:number=""urn:oasis:names:tc:opendocument:xmlns:datastyle:1.0"" xmlns:svg=""urn:oasis:names:tc:opendocument:xmlns:svg-compatible:1.0"" xmlns:chart=""urn:oasis:names:tc:opendocument:xmlns:chart:1.0"" xmlns:dr3d=""urn:oasis:names:tc:opendocument:xmlns:dr3d:1.0"" xmlns:math=""http://www.w3.org/1998/Math/MathML"" xmlns:form=""urn:oasis:names:tc:opendocument:xmlns:form:1.0"" xmlns:script=""urn:oasis:names:tc:opendocument:xmlns:script:1.0"" xmlns:ooo=""http://openoffice.org/2004/office"" xmlns:ooow=""http://openoffice.org/2004/writer"" xmlns:oooc=""http://openoffice.org/2004/calc"" xmlns:dom=""http://www.w3.org/2001/xml-events"" xmlns:xforms=""http://www.w3.org/2002/xforms"" xmlns:xsd=""http://www.w3.org/2001/XMLSchema"" xmlns:xsi=""http://www.w3.org/2001/XMLSchema-instance"" xmlns:rpt=""http://openoffice.org/2005/report"" xmlns:of=""urn:oasis:names:tc:opendocument:xmlns:of:1.2"" xmlns:xhtml=""http://www.w3.org/1999/xhtml"" xmlns:grddl=""http://www.w3.org/2003/g/data-view#"" xmlns:tableooo=""http://openoffice.org/2009/table"" xmlns:field=""urn:openoffice:names:experimental:ooo-ms-interop:xmlns:field:1.0"" office:version=""1.2"">
 <office:scripts/>
 <office:font-face-decls>
  <style:font-face style:name=""StarSymbol"" svg:font-family=""StarSymbol"" style:font-charset=""x-symbol""/>
  <style:font-face style:name=""Consolas"" svg:font-family=""Consolas"" style:font-adornments=""Standard"" style:font-family-generic=""modern"" style:font-pitch=""fixed""/>
  <style:font-face style:name=""Courier New"" svg:font-family=""&apos;Courier New&apos;"" style:font-adornments=""Standard"" style:font-family-generic=""modern"" style:font-pitch=""fixed""/>
 </office:font-face-decls>
 <office:automatic-styles/>
 <office:body>
  <office:text text:use-soft-page-breaks=""true"">

<text:p text:style-name=""Title"">$Title</text:p>
<text:p text:style-name=""Subtitle"">$AuthorName</text:p>
").

(** src/pywriter/odt_w/odt_w_chapterdesc.py 23-24 _partTemplate *)
Definition OdtWChapterDesc_part : str := (s "<text:h text:style-name=""Heading_20_1"" text:outline-level=""1"">$Title</text:h>
").

(** src/pywriter/odt_w/odt_w_chapterdesc.py 26-30 _chapterTemplate *)
Definition OdtWChapterDesc_chapter : str := (s "<text:section text:style-name=""Sect1"" text:name=""ChID:$ID"">
<text:h text:style-name=""Heading_20_2"" text:outline-level=""2""><text:a xlink:href=""../${ProjectName}_manuscript.odt#ChID:$ID%7Cregion"">$Title</text:a></text:h>
<text:p text:style-name=""Text_20_body"">$Desc</text:p>
</text:section>
").

(** src/pywriter/odt_w/odt_w_chapterdesc.py 32-32 _fileFooter *)
Definition OdtWChapterDesc_fileFooter : str := (s "  </office:text>
 </office:body>
</office:document-content>
").

(** class OdtWChapterDesc: its templates; the filters accept everything (src/pywriter/file/filter.py 22-32) *)
Definition OdtWChapterDesc_with mh mc ms mp ml mi mo : exporter :=
  mkExporter OdtWChapterDesc_fileHeader OdtWChapterDesc_part OdtWChapterDesc_chapter [] [] [] [] [] [] [] [] [] [] [] [] [] [] [] [] [] [] [] [] [] [] [] [] [] OdtWChapterDesc_fileFooter []
  (fun _ => true) (fun _ => true) (fun _ => true) (fun _ => true) (fun _ => true) mh mc ms mp ml mi mo.

(** src/pywriter/odt_w/odt_w_partdesc.py 21-23 _fileHeader *)
Definition OdtWPartDesc_fileHeader : str := (s "<?xml version=""1.0"" encoding=""UTF-8""?>

<office:document-content xmlns:office=""urn:oasis:names:tc:opendocument:xmlns:office:1.0"" xmlns:style=""urn:oasis:names:tc:opendocument:xmlns:style:1.0"" xmlns:text=""urn:oasis:names:tc:opendocument:xmlns:text:1.0"" xmlns:table=""urn:oasis:names:tc:opendocument:xmlns:table:1.0"" xmlns:draw=""urn:oasis:names:tc:opendocument:xmlns:drawing:1.0"" xmlns:fo=""urn:oasis:names:tc:opendocument:xmlns:xsl-fo-compatible:1.0"" xmlns:xlink=""http://www.w3.org/1999/xlink"" xmlns:dc=""http://purl.org/dc/elements/1.1/"" xmlns:meta=""urn:oasis:names:tc:opendocument:xmlns:meta:1.0"" xmlns:number=""urn:oasis:names:tc:opendocument:xmlns:datastyle:1.0"" xmlns:svg=""urn:oasis:names:tc:opendocument:xmlns:svg-compatible:1.0"" xmlns:chart=""urn:oasis:names:tc:opendocument:xmlns:chart:1.0"" xmlns:dr3d=""urn:oasis:names:tc:opendocument:xmlns:dr3d:1.0"" xmlns:math=""http://www.w3.org/1998/Math/MathML"" xmlns:form=""urn:oasis:names:tc:opendocument:xmlns:form:1.0"" xmlns:script=""urn:oasis:names:tc:opendocument:xmlns:script:1.0"" xmlns:ooo=""http://openoffice.org/2004/office"" xmlns:ooow=""http://openoffice.org/2004/writer"" xmlns:oooc=""http://openoffice.org/2004/calc"" xmlns:dom=""http://www.w3.org/2001/xml-events"" xmlns:xforms=""http://www.w3.org/2002/xforms"" xmlns:xsd=""http://www.w3.org/2001/XMLSchema"" xmlns:xsi=""http://www.w3.org/2001/XMLSchema-instance"" xmlns:rpt=""http://openoffice.org/2005/report"" xmlns:of=""urn:oasis:names:tc:opendocument:xmlns:of:1.2"" xmlns:xhtml=""http://www.w3.org/1999/xhtml"" xmlns:grddl=""http://www.w3.org/2003/g/data-view#"" xmlns:tableooo=""http://openoffice.org/2009/table"" xmlns:field=""urn:openoffice:names:experimental:ooo-ms-interop:xmlns:field:1.0"" office:version=""1.2"">
 <office:scripts/>
 <office:font-face-decls>
  <style:font-face style:name=""StarSymbol"" svg:font-family=""StarSymbol"" style:font-charset=""x-symbol""/>
  <style:font-face style:name=""Consolas"" svg:font-family=""Consolas"" style:font-adornments=""Standard"" style:font-family-generic=""modern"" style:font-pitch=""fixed""/>
  <style:font-face style:name=""Courier New"" svg:font-family=""&apos;Courier New&apos;"" style:font-adornments=""Standard"" style:font-family-generic=""modern"" style:font-pitch=""fixed""/>
 </office:font-face-decls>
 <office:automatic-styles/>
 <office:body>
  <office:text text:use-soft-page-breaks=""true"">

<text:p text:style-name=""Title"">$Title</text:p>
<text:p text:style-name=""Subtitle"">$AuthorName</text:p>
").

(** src/pywriter/odt_w/odt_w_partdesc.py 25-29 _partTemplate *)
Definition OdtWPartDesc_part : str := (s "<text:section text:style-name=""Sect1"" text:name=""ChID:$ID"">
<text:h text:style-name=""Heading_20_1"" text:outline-level=""1""><text:a xlink:href=""../${ProjectName}_manuscript.odt#ChID:$ID%7Cregion"">$Title</text:a></text:h>
<text:p text:style-name=""Text_20_body"">$Desc</text:p>
</text:section>
").

(** src/pywriter/odt_w/odt_w_partdesc.py 31-31 _fileFooter *)
Definition OdtWPartDesc_fileFooter : str := (s "  </office:text>
 </office:body>
</office:document-content>
").

(** class OdtWPartDesc: its templates; the filters accept everything (src/pywriter/file/filter.py 22-32) *)
Definition OdtWPartDesc_with mh mc ms mp ml mi mo : exporter :=
  mkExporter OdtWPartDesc_fileHeader OdtWPartDesc_part [] [] [] [] [] [] [] [] [] [] [] [] [] [] [] [] [] [] [] [] [] [] [] [] [] [] OdtWPartDesc_fileFooter []
  (fun _ => true) (fun _ => true) (fun _ => true) (fun _ => true) (fun _ => true) mh mc ms mp ml mi mo.

(** src/pywriter/odt_w/odt_w_brief_synopsis.py 19-21 _fileHeader *)
Definition OdtWBriefSynopsis_fileHeader : str := (s "<?xml version=""1.0"" encoding=""UTF-8""?>

<office:document-content xmlns:office=""urn:oasis:names:tc:opendocument:xmlns:office:1.0"" xmlns:style=""urn:oasis:names:tc:opendocument:xmlns:style:1.0"" xmlns:text=""urn:oasis:names:tc:opendocument:xmlns:text:1.0"" xmlns:table=""urn:oasis:names:tc:opendocument:xmlns:table:1.0"" xmlns:draw=""urn:oasis:names:tc:opendocument:xmlns:drawing:1.0"" xmlns:fo=""urn:oasis:names:tc:opendocument:xmlns:xsl-fo-compatible:1.0"" xmlns:xlink=""http://www.w3.org/1999/xlink"" xmlns:dc=""http://purl.org/dc/elements/1.1/"" xmlns:meta=""urn:oasis:names:tc:opendocument:xmlns:meta:1.0"" xmlns:number=""urn:oasis:names:tc:opendocument:xmlns:datastyle:1.0"" xmlns:svg=""urn:oasis:names:tc:opendocument:xmlns:svg-compatible:1.0"" xmlns:chart=""urn:oasis:names:tc:opendocument:xmlns:chart:1.0"" xmlns:dr3d=""urn:oasis:names:tc:opendocument:xmlns:dr3d:1.0"" xmlns:math=""http://www.w3.org/1998/Math/MathML"" xmlns:form=""urn:oasis:names:tc:opendocument:xmlns:form:1.0"" xmlns:script=""urn:oasis:names:tc:opendocument:xmlns:script:1.0"" xmlns:ooo=""http://openoffice.org/2004/office"" xmlns:ooow=""http://openoffice.org/2004/writer"" xmlns:oooc=""http://openoffice.org/2004/calc"" xmlns:dom=""http://www.w3.org/2001/xml-events"" xmlns:xforms=""http://www.w3.org/2002/xforms"" xmlns:xsd=""http://www.w3.org/2001/XMLSchema"" xmlns:xsi=""http://www.w3.org/2001/XMLSchema-instance"" xmlns:rpt=""http://openoffice.org/2005/report"" xmlns:of=""urn:oasis:names:tc:opendocument:xmlns:of:1.2"" xmlns:xhtml=""http://www.w3.org/1999/xhtml"" xmlns:grddl=""http://www.w3.org/2003/g/data-view#"" xmlns:tableooo=""http://openoffice.org/2009/table"" xmlns:field=""urn:openoffice:names:experimental:ooo-ms-interop:xmlns:field:1.0"" office:version=""1.2"">
 <office:scripts/>
 <office:font-face-decls>
  <style:font-face style:name=""StarSymbol"" svg:font-family=""StarSymbol"" style:font-charset=""x-symbol""/>
  <style:font-face style:name=""Consolas"" svg:font-family=""Consolas"" style:font-adornments=""Standard"" style:font-family-generic=""modern"" style:font-pitch=""fixed""/>
  <style:font-face style:name=""Courier New"" svg:font-family=""&apos;Courier New&apos;"" style:font-adornments=""Standard"" style:font-family-generic=""modern"" style:font-pitch=""fixed""/>
 </office:font-face-decls>
 <office:automatic-styles/>
 <office:body>
  <office:text text:use-soft-page-breaks=""true"">

<text:p text:style-name=""Title"">$Title</text:p>
<text:p text:style-name=""Subtitle"">$AuthorName</text:p>
").

(** src/pywriter/odt_w/odt_w_brief_synopsis.py 23-24 _partTemplate *)
Definition OdtWBriefSynopsis_part : str := (s "<text:h text:style-name=""Heading_20_1"" text:outline-level=""1"">$Title</text:h>
").

(** src/pywriter/odt_w/odt_w_brief_synopsis.py 26-27 _chapterTemplate *)
Definition OdtWBriefSynopsis_chapter : str := (s "<text:h text:style-name=""Heading_20_2"" text:outline-level=""2"">$Title</text:h>
").

(** src/pywriter/odt_w/odt_w_brief_synopsis.py 29-30 _sceneTemplate *)
Definition OdtWBriefSynopsis_scene : str := (s "<text:p text:style-name=""Text_20_body"">$Title</text:p>
").

(** src/pywriter/odt_w/odt_w_brief_synopsis.py 32-32 _fileFooter *)
Definition OdtWBriefSynopsis_fileFooter : str := (s "  </office:text>
 </office:body>
</office:document-content>
").

(** class OdtWBriefSynopsis: its templates; the filters accept everything (src/pywriter/file/filter.py 22-32) *)
Definition OdtWBriefSynopsis_with mh mc ms mp ml mi mo : exporter :=
  mkExporter OdtWBriefSynopsis_fileHeader OdtWBriefSynopsis_part OdtWBriefSynopsis_chapter [] [] [] [] [] [] OdtWBriefSynopsis_scene [] [] [] [] [] [] [] [] [] [] [] [] [] [] [] [] [] [] OdtWBriefSynopsis_fileFooter []
  (fun _ => true) (fun _ => true) (fun _ => true) (fun _ => true) (fun _ => true) mh mc ms mp ml mi mo.

(** src/pywriter/odt_w/odt_w_characters.py 19-21 _fileHeader *)
Definition OdtWCharacters_fileHeader : str := (s "<?xml version=""1.0"" encoding=""UTF-8""?>

<office:document-content xmlns:office=""urn:oasis:names:tc:opendocument:xmlns:office:1.0"" xmlns:style=""urn:oasis:names:tc:opendocument:xmlns:style:1.0"" xmlns:text=""urn:oasis:names:tc:opendocument:xmlns:text:1.0"" xmlns:table=""urn:oasis:names:tc:opendocument:xmlns:table:1.0"" xmlns:draw=""urn:oasis:names:tc:opendocument:xmlns:drawing:1.0"" xmlns:fo=""urn:oasis:names:tc:opendocument:xmlns:xsl-fo-compatible:1.0"" xmlns:xlink=""http://www.w3.org/1999/xlink"" xmlns:dc=""http://purl.org/dc/elements/1.1/"" xmlns:meta=""urn:oasis:names:tc:opendocument:xmlns:meta:1.0"" xmlns:number=""urn:oasis:names:tc:opendocument:xmlns:datastyle:1.0"" xmlns:svg=""urn:oasis:names:tc:opendocument:xmlns:svg-compatible:1.0"" xmlns:chart=""urn:oasis:names:tc:opendocument:xmlns:chart:1.0"" xmlns:dr3d=""urn:oasis:names:tc:opendocument:xmlns:dr3d:1.0"" xmlns:math=""http://www.w3.org/1998/Math/MathML"" xmlns:form=""urn:oasis:names:tc:opendocument:xmlns:form:1.0"" xmlns:script=""urn:oasis:names:tc:opendocument:xmlns:script:1.0"" xmlns:ooo=""http://openoffice.org/2004/office"" xmlns:ooow=""http://openoffice.org/2004/writer"" xmlns:oooc=""http://openoffice.org/2004/calc"" xmlns:dom=""http://www.w3.org/2001/xml-events"" xmlns:xforms=""http://www.w3.org/2002/xforms"" xmlns:xsd=""http://www.w3.org/2001/XMLSchema"" xmlns:xsi=""http://www.w3.org/2001/XMLSchema-instance"" xmlns:rpt=""http://openoffice.org/2005/report"" xmlns:of=""urn:oasis:names:tc:opendocument:xmlns:of:1.2"" xmlns:xhtml=""http://www.w3.org/1999/xhtml"" xmlns:grddl=""http://www.w3.org/2003/g/data-view#"" xmlns:tableooo=""http://openoffice.org/2009/table"" xmlns:field=""urn:openoffice:names:experimental:ooo-ms-interop:xmlns:field:1.0"" office:version=""1.2"">
 <office:scripts/>
 <office:font-face-decls>
  <style:font-face style:name=""StarSymbol"" svg:font-family=""StarSymbol"" style:font-charset=""x-symbol""/>
  <style:font-face style:name=""Consolas"" svg:font-family=""Consolas"" style:font-adornments=""Standard"" style:font-family-generic=""modern"" style:font-pitch=""fixed""/>
  <style:font-face style:name=""Courier New"" svg:font-family=""&apos;Courier New&apos;"" style:font-adornments=""Standard"" style:font-family-generic=""modern"" style:font-pitch=""fixed""/>
 </office:font-face-decls>
 <office:automatic-styles/>
 <office:body>
  <office:text text:use-soft-page-breaks=""true"">

<text:p text:style-name=""Title"">$Title</text:p>
<text:p text:style-name=""Subtitle"">$AuthorName</text:p>
").

(** src/pywriter/odt_w/odt_w_characters.py 23-42 _characterTemplate *)
Definition OdtWCharacters_character : str := (s "<text:h text:style-name=""Heading_20_2"" text:outline-level=""2"">$Title$FullName$AKA</text:h>
<text:section text:style-name=""Sect1"" text:name=""CrID:$ID"">
<text:h text:style-name=""Heading_20_3"" text:outline-level=""3"">Description</text:h>
<text:section text:style-name=""Sect1"" text:name=""CrID_desc:$ID"">
<text:p text:style-name=""Text_20_body"">$Desc</text:p>
</text:section>
<text:h text:style-name=""Heading_20_3"" text:outline-level=""3"">Bio</text:h>
<text:section text:style-name=""Sect1"" text:name=""CrID_bio:$ID"">
<text:p text:style-name=""Text_20_body"">$Bio</text:p>
</text:section>
<text:h text:style-name=""Heading_20_3"" text:outline-level=""3"">Goals</text:h>
<text:section text:style-name=""Sect1"" text:name=""CrID_goals:$ID"">
<text:p text:style-name=""Text_20_body"">$Goals</text:p>
</text:section>
<text:h text:style-name=""Heading_20_3"" text:outline-level=""3"">Notes</text:h>
<text:section text:style-name=""Sect1"" text:name=""CrID_notes:$ID"">
<text:p text:style-name=""Text_20_body"">$Notes</text:p>
</text:section>
</text:section>
").

(** src/pywriter/odt_w/odt_w_characters.py 44-44 _fileFooter *)
Definition OdtWCharacters_fileFooter : str := (s "  </office:text>
 </office:body>
</office:document-content>
").

(** class OdtWCharacters: its templates; the filters accept everything (src/pywriter/file/filter.py 22-32) *)
Definition OdtWCharacters_with mh mc ms mp ml mi mo : exporter :=
  mkExporter OdtWCharacters_fileHeader [] [] [] [] [] [] [] [] [] [] [] [] [] [] [] [] [] [] [] [] [] [] OdtWCharacters_character [] [] [] [] OdtWCharacters_fileFooter []
  (fun _ => true) (fun _ => true) (fun _ => true) (fun _ => true) (fun _ => true) mh mc ms mp ml mi mo.

(** src/pywriter/odt_w/odt_w_locations.py 19-21 _fileHeader *)
Definition OdtWLocations_fileHeader : str := (s "<?xml version=""1.0"" encoding=""UTF-8""?>

<office:document-content xmlns:office=""urn:oasis:names:tc:opendocument:xmlns:office:1.0"" xmlns:style=""urn:oasis:names:tc:opendocument:xmlns:style:1.0"" xmlns:text=""urn:oasis:names:tc:opendocument:xmlns:text:1.0"" xmlns:table=""urn:oasis:names:tc:opendocument:xmlns:table:1.0"" xmlns:draw=""urn:oasis:names:tc:opendocument:xmlns:drawing:1.0"" xmlns:fo=""urn:oasis:names:tc:opendocument:xmlns:xsl-fo-compatible:1.0"" xmlns:xlink=""http://www.w3.org/1999/xlink"" xmlns:dc=""http://purl.org/dc/elements/1.1/"" xmlns:meta=""urn:oasis:names:tc:opendocument:xmlns:meta:1.0"" xmlns:number=""urn:oasis:names:tc:opendocument:xmlns:datastyle:1.0"" xmlns:svg=""urn:oasis:names:tc:opendocument:xmlns:svg-compatible:1.0"" xmlns:chart=""urn:oasis:names:tc:opendocument:xmlns:chart:1.0"" xmlns:dr3d=""urn:oasis:names:tc:opendocument:xmlns:dr3d:1.0"" xmlns:math=""http://www.w3.org/1998/Math/MathML"" xmlns:form=""urn:oasis:names:tc:opendocument:xmlns:form:1.0"" xmlns:script=""urn:oasis:names:tc:opendocument:xmlns:script:1.0"" xmlns:ooo=""http://openoffice.org/2004/office"" xmlns:ooow=""http://openoffice.org/2004/writer"" xmlns:oooc=""http://openoffice.org/2004/calc"" xmlns:dom=""http://www.w3.org/2001/xml-events"" xmlns:xforms=""http://www.w3.org/2002/xforms"" xmlns:xsd=""http://www.w3.org/2001/XMLSchema"" xmlns:xsi=""http://www.w3.org/2001/XMLSchema-instance"" xmlns:rpt=""http://openoffice.org/2005/report"" xmlns:of=""urn:oasis:names:tc:opendocument:xmlns:of:1.2"" xmlns:xhtml=""http://www.w3.org/1999/xhtml"" xmlns:grddl=""http://www.w3.org/2003/g/data-view#"" xmlns:tableooo=""http://openoffice.org/2009/table"" xmlns:field=""urn:openoffice:names:experimental:ooo-ms-interop:xmlns:field:1.0"" office:version=""1.2"">
 <office:scripts/>
 <office:font-face-decls>
  <style:font-face style:name=""StarSymbol"" svg:font-family=""StarSymbol"" style:font-charset=""x-symbol""/>
  <style:font-face style:name=""Consolas"" svg:font-family=""Consolas"" style:font-adornments=""Standard"" style:font-family-generic=""modern"" style:font-pitch=""fixed""/>
  <style:font-face style:name=""Courier New"" svg:font-family=""&apos;Courier New&apos;"" style:font-adornments=""Standard"" style:font-family-generic=""modern"" style:font-pitch=""fixed""/>
 </office:font-face-decls>
 <office:automatic-styles/>
 <office:body>
  <office:text text:use-soft-page-breaks=""true"">

<text:p text:style-name=""Title"">$Title</text:p>
<text:p text:style-name=""Subtitle"">$AuthorName</text:p>
").

(** src/pywriter/odt_w/odt_w_locations.py 23-27 _locationTemplate *)
Definition OdtWLocations_location : str := (s "<text:h text:style-name=""Heading_20_2"" text:outline-level=""2"">$Title$AKA</text:h>
<text:section text:style-name=""Sect1"" text:name=""LcID:$ID"">
<text:p text:style-name=""Text_20_body"">$Desc</text:p>
</text:section>
").

(** src/pywriter/odt_w/odt_w_locations.py 29-29 _fileFooter *)
Definition OdtWLocations_fileFooter : str := (s "  </office:text>
 </office:body>
</office:document-content>
").

(** class OdtWLocations: its templates; the filters accept everything (src/pywriter/file/filter.py 22-32) *)
Definition OdtWLocations_with mh mc ms mp ml mi mo : exporter :=
  mkExporter OdtWLocations_fileHeader [] [] [] [] [] [] [] [] [] [] [] [] [] [] [] [] [] [] [] [] [] [] [] [] OdtWLocations_location [] [] OdtWLocations_fileFooter []
  (fun _ => true) (fun _ => true) (fun _ => true) (fun _ => true) (fun _ => true) mh mc ms mp ml mi mo.

(** src/pywriter/odt_w/odt_w_items.py 19-21 _fileHeader *)
Definition OdtWItems_fileHeader : str := (s "<?xml version=""1.0"" encoding=""UTF-8""?>

<office:document-content xmlns:office=""urn:oasis:names:tc:opendocument:xmlns:office:1.0"" xmlns:style=""urn:oasis:names:tc:opendocument:xmlns:style:1.0"" xmlns:text=""urn:oasis:names:tc:opendocument:xmlns:text:1.0"" xmlns:table=""urn:oasis:names:tc:opendocument:xmlns:table:1.0"" xmlns:draw=""urn:oasis:names:tc:opendocument:xmlns:drawing:1.0"" xmlns:fo=""urn:oasis:names:tc:opendocument:xmlns:xsl-fo-compatible:1.0"" xmlns:xlink=""http://www.w3.org/1999/xlink"" xmlns:dc=""http://purl.org/dc/elements/1.1/"" xmlns:meta=""urn:oasis:names:tc:opendocument:xmlns:meta:1.0"" xmlns:number=""urn:oasis:names:tc:opendocument:xmlns:datastyle:1.0"" xmlns:svg=""urn:oasis:names:tc:opendocument:xmlns:svg-compatible:1.0"" xmlns:chart=""urn:oasis:names:tc:opendocument:xmlns:chart:1.0"" xmlns:dr3d=""urn:oasis:names:tc:opendocument:xmlns:dr3d:1.0"" xmlns:math=""http://www.w3.org/1998/Math/MathML"" xmlns:form=""urn:oasis:names:tc:opendocument:xmlns:form:1.0"" xmlns:script=""urn:oasis:names:tc:opendocument:xmlns:script:1.0"" xmlns:ooo=""http://openoffice.org/2004/office"" xmlns:ooow=""http://openoffice.org/2004/writer"" xmlns:oooc=""http://openoffice.org/2004/calc"" xmlns:dom=""http://www.w3.org/2001/xml-events"" xmlns:xforms=""http://www.w3.org/2002/xforms"" xmlns:xsd=""http://www.w3.org/2001/XMLSchema"" xmlns:xsi=""http://www.w3.org/2001/XMLSchema-instance"" xmlns:rpt=""http://openoffice.org/2005/report"" xmlns:of=""urn:oasis:names:tc:opendocument:xmlns:of:1.2"" xmlns:xhtml=""http://www.w3.org/1999/xhtml"" xmlns:grddl=""http://www.w3.org/2003/g/data-view#"" xmlns:tableooo=""http://openoffice.org/2009/table"" xmlns:field=""urn:openoffice:names:experimental:ooo-ms-interop:xmlns:field:1.0"" office:version=""1.2"">
 <office:scripts/>
 <office:font-face-decls>
  <style:font-face style:name=""StarSymbol"" svg:font-family=""StarSymbol"" style:font-charset=""x-symbol""/>
  <style:font-face style:name=""Consolas"" svg:font-family=""Consolas"" style:font-adornments=""Standard"" style:font-family-generic=""modern"" style:font-pitch=""fixed""/>
  <style:font-face style:name=""Courier New"" svg:font-family=""&apos;Courier New&apos;"" style:font-adornments=""Standard"" style:font-family-generic=""modern"" style:font-pitch=""fixed""/>
 </office:font-face-decls>
 <office:automatic-styles/>
 <office:body>
  <office:text text:use-soft-page-breaks=""true"">

<text:p text:style-name=""Title"">$Title</text:p>
<text:p text:style-name=""Subtitle"">$AuthorName</text:p>
").

(** src/pywriter/odt_w/odt_w_items.py 23-27 _itemTemplate *)
Definition OdtWItems_item : str := (s "<text:h text:style-name=""Heading_20_2"" text:outline-level=""2"">$Title$AKA</text:h>
<text:section text:style-name=""Sect1"" text:name=""ItID:$ID"">
<text:p text:style-name=""Text_20_body"">$Desc</text:p>
</text:section>
").

(** src/pywriter/odt_w/odt_w_items.py 29-29 _fileFooter *)
Definition OdtWItems_fileFooter : str := (s "  </office:text>
 </office:body>
</office:document-content>
").

(** class OdtWItems: its templates; the filters accept everything (src/pywriter/file/filter.py 22-32) *)
Definition OdtWItems_with mh mc ms mp ml mi mo : exporter :=
  mkExporter OdtWItems_fileHeader [] [] [] [] [] [] [] [] [] [] [] [] [] [] [] [] [] [] [] [] [] [] [] [] [] [] OdtWItems_item OdtWItems_fileFooter []
  (fun _ => true) (fun _ => true) (fun _ => true) (fun _ => true) (fun _ => true) mh mc ms mp ml mi mo.

(** src/pywriter/odt_w/odt_w_proof.py 21-23 _fileHeader *)
Definition OdtWProof_fileHeader : str := (s "$ContentHeader<text:p text:style-name=""Title"">$Title</text:p>
<text:p text:style-name=""Subtitle"">$AuthorName</text:p>
").

(** src/pywriter/odt_w/odt_w_proof.py 25-26 _partTemplate *)
Definition OdtWProof_part : str := (s "<text:h text:style-name=""Heading_20_1"" text:outline-level=""1"">$Title</text:h>
").

(** src/pywriter/odt_w/odt_w_proof.py 28-29 _chapterTemplate *)
Definition OdtWProof_chapter : str := (s "<text:h text:style-name=""Heading_20_2"" text:outline-level=""2"">$Title</text:h>
").

(** src/pywriter/odt_w/odt_w_proof.py 31-35 _sceneTemplate *)
Definition OdtWProof_scene : str := (s "<text:h text:style-name=""Heading_20_3"" text:outline-level=""3"">$Title</text:h>
<text:p text:style-name=""scene_20_mark"">[ScID:$ID]</text:p>
<text:p text:style-name=""Text_20_body"">$SceneContent</text:p>
<text:p text:style-name=""scene_20_mark"">[/ScID]</text:p>
").

(** src/pywriter/odt_w/odt_w_proof.py 37-37 _fileFooter *)
Definition OdtWProof_fileFooter : str := (s "  </office:text>
 </office:body>
</office:document-content>
").

(** class OdtWProof: its templates; the filters accept everything (src/pywriter/file/filter.py 22-32) *)
Definition OdtWProof_with mh mc ms mp ml mi mo : exporter :=
  mkExporter OdtWProof_fileHeader OdtWProof_part OdtWProof_chapter [] [] [] [] [] [] OdtWProof_scene [] [] [] [] [] [] [] [] [] [] [] [] [] [] [] [] [] [] OdtWProof_fileFooter []
  (fun _ => true) (fun _ => true) (fun _ => true) (fun _ => true) (fun _ => true) mh mc ms mp ml mi mo.

(** src/pywriter/odt_w/odt_w_export.py 18-20 _fileHeader *)
Definition OdtWExport_fileHeader : str := (s "$ContentHeader<text:p text:style-name=""Title"">$Title</text:p>
<text:p text:style-name=""Subtitle"">$AuthorName</text:p>
").

(** src/pywriter/odt_w/odt_w_export.py 22-23 _partTemplate *)
Definition OdtWExport_part : str := (s "<text:h text:style-name=""Heading_20_1"" text:outline-level=""1"">$Title</text:h>
").

(** src/pywriter/odt_w/odt_w_export.py 25-26 _chapterTemplate *)
Definition OdtWExport_chapter : str := (s "<text:h text:style-name=""Heading_20_2"" text:outline-level=""2"">$Title</text:h>
").

(** src/pywriter/odt_w/odt_w_export.py 28-29 _sceneTemplate *)
Definition OdtWExport_scene : str := (s "'<text:p text:style-name=""Text_20_body"">$SceneContent</text:p>
    ").

(** src/pywriter/odt_w/odt_w_export.py 31-32 _appendedSceneTemplate *)
Definition OdtWExport_appendedScene : str := (s "<text:p text:style-name=""First_20_line_20_indent"">$SceneContent</text:p>
").

(** src/pywriter/odt_w/odt_w_export.py 34-34 _sceneDivider *)
Definition OdtWExport_divider : str := (s "<text:p text:style-name=""Heading_20_4"">* * *</text:p>
").

(** src/pywriter/odt_w/odt_w_export.py 35-35 _fileFooter *)
Definition OdtWExport_fileFooter : str := (s "  </office:text>
 </office:body>
</office:document-content>
").

(** class OdtWExport: its templates; the filters accept everything (src/pywriter/file/filter.py 22-32) *)
Definition OdtWExport_with mh mc ms mp ml mi mo : exporter :=
  mkExporter OdtWExport_fileHeader OdtWExport_part OdtWExport_chapter [] [] [] [] [] [] OdtWExport_scene [] OdtWExport_appendedScene [] [] [] [] OdtWExport_divider [] [] [] [] [] [] [] [] [] [] [] OdtWExport_fileFooter []
  (fun _ => true) (fun _ => true) (fun _ => true) (fun _ => true) (fun _ => true) mh mc ms mp ml mi mo.

(** src/pywriter/odt_w/odt_w_xref.py 18-20 _fileHeader *)
Definition OdtWXref_fileHeader : str := (s "<?xml version=""1.0"" encoding=""UTF-8""?>

<office:document-content xmlns:office=""urn:oasis:names:tc:opendocument:xmlns:office:1.0"" xmlns:style=""urn:oasis:names:tc:opendocument:xmlns:style:1.0"" xmlns:text=""urn:oasis:names:tc:opendocument:xmlns:text:1.0"" xmlns:table=""urn:oasis:names:tc:opendocument:xmlns:table:1.0"" xmlns:draw=""urn:oasis:names:tc:opendocument:xmlns:drawing:1.0"" xmlns:fo=""urn:oasis:names:tc:opendocument:xmlns:xsl-fo-compatible:1.0"" xmlns:xlink=""http://www.w3.org/1999/xlink"" xmlns:dc=""http://purl.org/dc/elements/1.1/"" xmlns:meta=""urn:oasis:names:tc:opendocument:xmlns:meta:1.0"" xmlns:number=""urn:oasis:names:tc:opendocument:xmlns:datastyle:1.0"" xmlns:svg=""urn:oasis:names:tc:opendocument:xmlns:svg-compatible:1.0"" xmlns:chart=""urn:oasis:names:tc:opendocument:xmlns:chart:1.0"" xmlns:dr3d=""urn:oasis:names:tc:opendocument:xmlns:dr3d:1.0"" xmlns:math=""http://www.w3.org/1998/Math/MathML"" xmlns:form=""urn:oasis:names:tc:opendocument:xmlns:form:1.0"" xmlns:script=""urn:oasis:names:tc:opendocument:xmlns:script:1.0"" xmlns:ooo=""http://openoffice.org/2004/office"" xmlns:ooow=""http://openoffice.org/2004/writer"" xmlns:oooc=""http://openoffice.org/2004/calc"" xmlns:dom=""http://www.w3.org/2001/xml-events"" xmlns:xforms=""http://www.w3.org/2002/xforms"" xmlns:xsd=""http://www.w3.org/2001/XMLSchema"" xmlns:xsi=""http://www.w3.org/2001/XMLSchema-instance"" xmlns:rpt=""http://openoffice.org/2005/report"" xmlns:of=""urn:oasis:names:tc:opendocument:xmlns:of:1.2"" xmlns:xhtml=""http://www.w3.org/1999/xhtml"" xmlns:grddl=""http://www.w3.org/2003/g/data-view#"" xmlns:tableooo=""http://openoffice.org/2009/table"" xmlns:field=""urn:openoffice:names:experimental:ooo-ms-interop:xmlns:field:1.0"" office:version=""1.2"">
 <office:scripts/>
 <office:font-face-decls>
  <style:font-face style:name=""StarSymbol"" svg:font-family=""StarSymbol"" style:font-charset=""x-symbol""/>
  <style:font-face style:name=""Consolas"" svg:font-family=""Consolas"" style:font-adornments=""Standard"" style:font-family-generic=""modern"" style:font-pitch=""fixed""/>
  <style:font-face style:name=""Courier New"" svg:font-family=""&apos;Courier New&apos;"" style:font-adornments=""Standard"" style:font-family-generic=""modern"" style:font-pitch=""fixed""/>
 </office:font-face-decls>
 <office:automatic-styles/>
 <office:body>
  <office:text text:use-soft-page-breaks=""true"">

<text:p text:style-name=""Title"">$Title</text:p>
<text:p text:style-name=""Subtitle"">$AuthorName</text:p>
").

(** src/pywriter/odt_w/odt_w_xref.py 21-24 _sceneTemplate *)
Definition OdtWXref_scene : str := (s "<text:p text:style-name=""scene_20_mark"">
<text:a xlink:href=""../${ProjectName}_manuscript.odt#ScID:$ID%7Cregion"">$SceneNumber</text:a> (Ch $Chapter) $Title
</text:p>
").

(** src/pywriter/odt_w/odt_w_xref.py 29-32 _notesSceneTemplate *)
Definition OdtWXref_notesScene : str := (s "<text:p text:style-name=""scene_20_mark_20_notes"">
$SceneNumber (Ch $Chapter) $Title (Notes)
</text:p>
").

(** src/pywriter/odt_w/odt_w_xref.py 33-36 _todoSceneTemplate *)
Definition OdtWXref_todoScene : str := (s "<text:p text:style-name=""scene_20_mark_20_todo"">
$SceneNumber (Ch $Chapter) $Title (ToDo)
</text:p>
").

(** src/pywriter/odt_w/odt_w_xref.py 25-28 _unusedSceneTemplate *)
Definition OdtWXref_unusedScene : str := (s "<text:p text:style-name=""scene_20_mark_20_unused"">
$SceneNumber (Ch $Chapter) $Title (Unused)
</text:p>
").

(** src/pywriter/odt_w/odt_w_xref.py 37-40 _characterTemplate *)
Definition OdtWXref_character : str := (s "<text:p text:style-name=""Text_20_body"">
<text:a xlink:href=""../${ProjectName}_characters.odt#CrID:$ID%7Cregion"">$Title</text:a> $FullName
</text:p>
").

(** src/pywriter/odt_w/odt_w_xref.py 41-44 _locationTemplate *)
Definition OdtWXref_location : str := (s "<text:p text:style-name=""Text_20_body"">
<text:a xlink:href=""../${ProjectName}_locations.odt#LcID:$ID%7Cregion"">$Title</text:a>
</text:p>
").

(** src/pywriter/odt_w/odt_w_xref.py 45-48 _itemTemplate *)
Definition OdtWXref_item : str := (s "<text:p text:style-name=""Text_20_body"">
<text:a xlink:href=""../${ProjectName}_items.odt#ItID:$ID%7Cregion"">$Title</text:a>
</text:p>
").

(** src/pywriter/odt_w/odt_w_xref.py 63-63 _fileFooter *)
Definition OdtWXref_fileFooter : str := (s "  </office:text>
 </office:body>
</office:document-content>
").

(** class OdtWXref: its templates; the filters accept everything (src/pywriter/file/filter.py 22-32) *)
Definition OdtWXref_with mh mc ms mp ml mi mo : exporter :=
  mkExporter OdtWXref_fileHeader [] [] [] [] [] [] [] [] OdtWXref_scene [] [] OdtWXref_notesScene OdtWXref_todoScene OdtWXref_unusedScene [] [] [] [] [] [] [] [] OdtWXref_character [] OdtWXref_location [] OdtWXref_item OdtWXref_fileFooter []
  (fun _ => true) (fun _ => true) (fun _ => true) (fun _ => true) (fun _ => true) mh mc ms mp ml mi mo.
