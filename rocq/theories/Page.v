(** The page of an example in the documentation.  Models mkdocs.dump,
    gsp/io/mkdocs.py:51-78: what is printed, and whether an exception ends it.

    Simplifications: [ansi] and [json] are the results of ansi.dump() and json.dump()
    (Text.v, JsonText.v). *)
From Verif Require Import Base Execute Docs.
Local Open Scope string_scope.

(** print(x) and print(x, end=""). gsp/io/mkdocs.py:53-60. *)
Definition println (x : string) : string := x ++ newline.
(** str.split("\n"). gsp/io/mkdocs.py:67 and 76. *)
Definition split_lines (s : string) : list string := split_on nl s.
(** What the loops of gsp/io/mkdocs.py:58-59, 67-68 and 76-77 print. *)
Fixpoint printed (l : list string) : string := match l with [] => "" | x :: r => x ++ printed r end.
(** The indentation of gsp/io/mkdocs.py:57-60. *)
Definition eight : string := "        ".
(** Lines 53-60. *)
Definition python_part (title : string) (code : list string) : string :=
  println ("??? example """ ++ title ++ """") ++
  println "    === ""PYTHON""" ++ println (eight ++ "``` python linenums=""1"" ") ++
  printed (map (fun line => eight ++ line) code) ++ println (eight ++ "```" ++ newline).
(** Lines 63-69 and 72-78. *)
Definition dump_part (tab language dump : string) : string :=
  println ("    === """ ++ tab ++ """") ++ println (eight ++ "``` " ++ language ++ " linenums=""1""") ++
  printed (map (fun line => println (eight ++ line)) (split_lines dump)) ++ println (eight ++ "```" ++ newline).
(** ["ansi" in self.formats], gsp/io/mkdocs.py:63 and 72. *)
Definition asked (f : string) (formats : list string) : bool := existsb (String.eqb f) formats.
(** mkdocs.dump: what has been printed, and how it ended. gsp/io/mkdocs.py:51-78. *)
Definition page (title : string) (formats : list string) (code : list string) (ansi json : res string) : string * res unit :=
  let p1 := python_part title code in
  let '(p2, r2) :=
    if asked "ansi" formats then match ansi with Ok d => (p1 ++ dump_part "TEXT" "ansi" d, Ok tt) | Err e => (p1, Err e) end
    else (p1, Ok tt) in
  match r2 with
  | Err e => (p2, Err e)
  | Ok _ =>
      if asked "json" formats then match json with Ok d => (p2 ++ dump_part "JSON" "json" d, Ok tt) | Err e => (p2, Err e) end
      else (p2, Ok tt)
  end.
