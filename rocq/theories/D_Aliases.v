(** Generated by tools/gen_alias.py from /repo/modules/{from,inter,to,filter}/alias (all lines).
    Each entry is (alias, expansion). *)
From Verif Require Import Base.

(** modules/from/alias lines 1-42 *)
Definition alias_from : list (str * str) := [
  (s_ "BIG5", s_ "UAO250");
  (s_ "BIG5E", s_ "ASCII,_BIG5E");
  (s_ "BIG5-2003", s_ "ASCII,_BIG5-2003");
  (s_ "BIG5-ETEN", s_ "ASCII,_BIG5-ETEN");
  (s_ "MOZ18", s_ "UAO241");
  (s_ "HTMLENTITY", s_ "ASCII-NUMERIC-HTML-ENTITY");
  (s_ "NCR", s_ "ASCII-NUMERIC-HTML-ENTITY");
  (s_ "NAMED-HTMLENTITY", s_ "ASCII-NAMED-HTML-ENTITY");
  (s_ "UCS-2", s_ "UTF-16LE");
  (s_ "UCS-2BE", s_ "UTF-16BE");
  (s_ "UCS-2LE", s_ "UTF-16LE");
  (s_ "CNS11643", s_ "ASCII,_CNS11643");
  (s_ "CP1251", s_ "_CP1251,ASCII,FALLBACK-UNICODE");
  (s_ "CP1252", s_ "_CP1252,ASCII,FALLBACK-UNICODE");
  (s_ "CP1253", s_ "_CP1253,ASCII,FALLBACK-UNICODE");
  (s_ "CP1254", s_ "_CP1254,ASCII,FALLBACK-UNICODE");
  (s_ "CP1255", s_ "_CP1255,ASCII,FALLBACK-UNICODE");
  (s_ "CP1256", s_ "_CP1256,ASCII,FALLBACK-UNICODE");
  (s_ "CP1257", s_ "_CP1257,ASCII,FALLBACK-UNICODE");
  (s_ "CP1258", s_ "_CP1258,ASCII,FALLBACK-UNICODE");
  (s_ "CP874", s_ "ASCII,_CP874,FALLBACK-UNICODE");
  (s_ "CP932", s_ "ASCII,_CP932");
  (s_ "CP936", s_ "ASCII,_CP936");
  (s_ "CP949", s_ "ASCII,_CP949");
  (s_ "CP950", s_ "ASCII,_CP950,CP950-UDA");
  (s_ "GB18030", s_ "ASCII,_GB18030");
  (s_ "GB2312", s_ "ASCII,_GB2312");
  (s_ "GBK", s_ "ASCII,_GBK");
  (s_ "HKSCS1999", s_ "ASCII,_CP950,_HKSCS1999");
  (s_ "HKSCS2001", s_ "ASCII,_CP950,_HKSCS2001");
  (s_ "HKSCS2004", s_ "ASCII,_CP950,_HKSCS2004");
  (s_ "ISO-8859-1", s_ "ASCII,_ISO-8859-1");
  (s_ "JIS", s_ "_JIS,ASCII");
  (s_ "LATIN1", s_ "ISO-8859-1");
  (s_ "SHIFT-JIS", s_ "ASCII,_SHIFT-JIS");
  (s_ "UAO241", s_ "ASCII,_UAO241");
  (s_ "UAO250", s_ "ASCII,_UAO250");
  (s_ "UTF-8", s_ "ASCII,_UTF-8");
  (s_ "3F", s_ "ANY#013F&ERROR");
  (s_ "SUB", s_ "ANY#01FFFD");
  (s_ "SKIP", s_ "PASS#UNMARK")
].

(** modules/inter/alias lines 1-9 *)
Definition alias_inter : list (str * str) := [
  (s_ "NFD", s_ "_NFD:_NF-HANGUL-DECOMPOSITION:_NF-ORDER");
  (s_ "NFKD", s_ "_NFKD:_NF-HANGUL-DECOMPOSITION:_NF-ORDER");
  (s_ "NFC", s_ "NFD:_NFC:_NF-HANGUL-COMPOSITION");
  (s_ "NFKC", s_ "NFKD:_NFC:_NF-HANGUL-COMPOSITION");
  (s_ "NFKD-CASEFOLD", s_ "NFD:CASEFOLD:NFKD:CASEFOLD:NFKD");
  (s_ "SPLIT", s_ "INSERT#AFTER=002C");
  (s_ "NOBOM", s_ "REPLACE#01FEFF");
  (s_ "ZH-STRINGS", s_ "STRINGS#FOR=CJK")
].

(** modules/to/alias lines 1-39 *)
Definition alias_to : list (str * str) := [
  (s_ "UAO", s_ "UAO250");
  (s_ "SOURCE", s_ "ASCII-ESCAPED-UNICODE");
  (s_ "JAVA", s_ "ASCII-ESCAPED-UNICODE");
  (s_ "HTMLENTITY", s_ "ASCII-HEX-NUMERIC-HTML-ENTITY");
  (s_ "NAMED-HTMLENTITY", s_ "ASCII-NAMED-HTML-ENTITY");
  (s_ "HTML-IMG", s_ "ASCII-HTML-UNICODE-IMG");
  (s_ "UCS-4", s_ "UTF-32LE");
  (s_ "UCS-4BE", s_ "UTF-32BE");
  (s_ "UCS-4LE", s_ "UTF-32LE");
  (s_ "UTF-32", s_ "UTF-32LE");
  (s_ "UTF-16", s_ "UTF-16LE");
  (s_ "UCS-2", s_ "UCS-2LE");
  (s_ "BIG5", s_ "CP950");
  (s_ "CNS11643", s_ "ASCII,_CNS11643");
  (s_ "CP1251", s_ "_CP1251,ASCII");
  (s_ "CP1252", s_ "_CP1252,ASCII");
  (s_ "CP1253", s_ "_CP1253,ASCII");
  (s_ "CP874", s_ "_CP874,ASCII");
  (s_ "CP936", s_ "_CP936,ASCII");
  (s_ "CP949", s_ "_CP949,ASCII");
  (s_ "CP950", s_ "_CP950,ASCII");
  (s_ "GB18030", s_ "_GB18030,ASCII");
  (s_ "GB2312", s_ "_GB2312,ASCII");
  (s_ "GBK", s_ "_GBK,ASCII");
  (s_ "ISO-8859-1", s_ "_ISO-8859-1,ASCII");
  (s_ "JIS", s_ "_JIS0212,ASCII");
  (s_ "SHIFT-JIS", s_ "_SHIFT-JIS,ASCII");
  (s_ "UAO241", s_ "_UAO241,ASCII");
  (s_ "UAO250", s_ "_UAO250,ASCII");
  (s_ "UTF-8", s_ "_UTF-8,ASCII");
  (s_ "3F", s_ "ANY#3F&ERROR");
  (s_ "URL", s_ "ESCAPE#FOR=UNICODE&MODE=16&PREFIX=2575,ESCAPE#FOR=BYTE&MODE=16&PREFIX=25");
  (s_ "ASCII-ESCAPED-UNICODE", s_ "ESCAPE#FOR=UNICODE&MODE=16&PREFIX=5C75");
  (s_ "ASCII-HEX-NUMERIC-HTML-ENTITY", s_ "ESCAPE#FOR=UNICODE&PREFIX=262378&MODE=16&SUFFIX=3B");
  (s_ "ASCII-DEC-NUMERIC-HTML-ENTITY", s_ "ESCAPE#FOR=UNICODE&PREFIX=2623&MODE=10&SUFFIX=3B");
  (s_ "UNICODE", s_ "PASS#MARK&FOR=UNICODE");
  (s_ "ANSI-CONTROL", s_ "PASS#MARK&FOR=ANSI");
  (s_ "BSDCONV-STDOUT", s_ "BSDCONV-OUTPUT")
].

(** modules/filter/alias lines 1-7 *)
Definition alias_filter : list (str * str) := [
  (s_ "01", s_ "UNICODE");
  (s_ "1", s_ "UNICODE");
  (s_ "02", s_ "CNS11643");
  (s_ "2", s_ "CNS11643");
  (s_ "03", s_ "BYTE");
  (s_ "3", s_ "BYTE");
  (s_ "1B", s_ "ANSI")
].

(** Rank witnessing that the shipped from/inter/to aliases are acyclic (depth of expansion). *)
Definition alias_rank : list (str * nat) := [
  (s_ "BIG5", 2);
  (s_ "BIG5E", 1);
  (s_ "BIG5-2003", 1);
  (s_ "BIG5-ETEN", 1);
  (s_ "MOZ18", 2);
  (s_ "HTMLENTITY", 2);
  (s_ "NCR", 1);
  (s_ "NAMED-HTMLENTITY", 1);
  (s_ "UCS-2", 2);
  (s_ "UCS-2BE", 1);
  (s_ "UCS-2LE", 1);
  (s_ "CNS11643", 1);
  (s_ "CP1251", 1);
  (s_ "CP1252", 1);
  (s_ "CP1253", 1);
  (s_ "CP1254", 1);
  (s_ "CP1255", 1);
  (s_ "CP1256", 1);
  (s_ "CP1257", 1);
  (s_ "CP1258", 1);
  (s_ "CP874", 1);
  (s_ "CP932", 1);
  (s_ "CP936", 1);
  (s_ "CP949", 1);
  (s_ "CP950", 1);
  (s_ "GB18030", 1);
  (s_ "GB2312", 1);
  (s_ "GBK", 1);
  (s_ "HKSCS1999", 1);
  (s_ "HKSCS2001", 1);
  (s_ "HKSCS2004", 1);
  (s_ "ISO-8859-1", 1);
  (s_ "JIS", 1);
  (s_ "LATIN1", 2);
  (s_ "SHIFT-JIS", 1);
  (s_ "UAO241", 1);
  (s_ "UAO250", 1);
  (s_ "UTF-8", 1);
  (s_ "3F", 1);
  (s_ "SUB", 1);
  (s_ "SKIP", 1);
  (s_ "NFD", 1);
  (s_ "NFKD", 1);
  (s_ "NFC", 2);
  (s_ "NFKC", 2);
  (s_ "NFKD-CASEFOLD", 2);
  (s_ "SPLIT", 1);
  (s_ "NOBOM", 1);
  (s_ "ZH-STRINGS", 1);
  (s_ "UAO", 2);
  (s_ "SOURCE", 2);
  (s_ "JAVA", 2);
  (s_ "HTML-IMG", 1);
  (s_ "UCS-4", 1);
  (s_ "UCS-4BE", 1);
  (s_ "UCS-4LE", 1);
  (s_ "UTF-32", 1);
  (s_ "UTF-16", 1);
  (s_ "URL", 1);
  (s_ "ASCII-ESCAPED-UNICODE", 1);
  (s_ "ASCII-HEX-NUMERIC-HTML-ENTITY", 1);
  (s_ "ASCII-DEC-NUMERIC-HTML-ENTITY", 1);
  (s_ "UNICODE", 1);
  (s_ "ANSI-CONTROL", 1);
  (s_ "BSDCONV-STDOUT", 1)
].
