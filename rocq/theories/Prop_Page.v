(** C100: the pages of the documentation. *)
From Verif Require Import Base Command Execute Docs DocsSpec Page PageSpec PageFacts.
Local Open Scope string_scope.
Local Open Scope nat_scope.

(** Read back, the page of an example has the code of the example in its first block and
    the dumps that were asked for in the next ones, line by line. *)
Theorem C100_page title formats body ansi json : contains nl title = false -> Forall writable body ->
  Forall (fun x => x <> "```") (split_on nl ansi) -> Forall (fun x => x <> "```") (split_on nl json) ->
  exists p, page title formats (map println body) (Ok ansi) (Ok json) = (p, Ok tt) /\
    shown p = (body :: (if asked "ansi" formats then [split_on nl ansi] else []) ++ (if asked "json" formats then [split_on nl json] else []))%list.
Proof. exact (whole_page title formats body ansi json). Qed.
Print Assumptions C100_page.
(** The same from the source of the example: a block of code, indented. *)
Theorem C100_source_partial k pre w body rest fuel title formats ansi json first more : 0 < k -> (rest = [] \/ exists l r, rest = l :: r /\ ends k l) ->
  body = first :: more -> has_text first = true -> indent_of first = 0 -> Forall (fun l => l = "" \/ has_text l = true) more -> Forall writable body -> S (length more) < fuel ->
  contains nl title = false -> Forall (fun x => x <> "```"%string) (split_on nl ansi) -> Forall (fun x => x <> "```"%string) (split_on nl json) ->
  exists lines p, code fuel (pre ++ w :: map (indented k) (map println body) ++ rest) (length pre + 1) = Some lines /\
    page title formats lines (Ok ansi) (Ok json) = (p, Ok tt) /\
    shown p = (body :: (if asked "ansi" formats then [split_on nl ansi] else []) ++ (if asked "json" formats then [split_on nl json] else []))%list.
Proof. exact (page_of_source k pre w body rest fuel title formats ansi json first more). Qed.
Print Assumptions C100_source_partial.
(** A line of spaces only, fewer than the indentation, disappears and moves the line after
    it to the right ... *)
Theorem C100_blank_refuted k j pre w first next rest fuel title : 0 < j < k -> (rest = [] \/ exists l r, rest = l :: r /\ ends k l) ->
  has_text first = true -> indent_of first = 0 -> has_text next = true -> writable first -> writable next -> writable (eight ++ next) -> 3 < fuel -> contains nl title = false ->
  exists lines, code fuel (pre ++ w :: (spaces k ++ println first)%string :: (spaces j ++ newline)%string :: (spaces k ++ println next)%string :: rest) (length pre + 1) = Some lines /\
    shown (python_part title lines) = [[first; (eight ++ next)%string]].
Proof. exact (short_blank k j pre w first next rest fuel title). Qed.
Print Assumptions C100_blank_refuted.
(** ... and at the end of the code, the block is not closed. *)
Theorem C100_unclosed_refuted title body : contains nl title = false -> Forall writable body ->
  shown (python_part title (map println body ++ [""])) = [(body ++ [(eight ++ "```")%string; ""; ""])%list].
Proof. exact (unclosed title body). Qed.
Print Assumptions C100_unclosed_refuted.
(** When a dump fails its exception is raised, after the parts before it. *)
Theorem C100_failed_ansi title formats body ansi json e : contains nl title = false -> Forall writable body ->
  asked "ansi" formats = true -> ansi = Err e -> exists p, page title formats (map println body) ansi json = (p, Err e) /\ shown p = [body].
Proof. exact (failed_page title formats body ansi json e). Qed.
Print Assumptions C100_failed_ansi.
Theorem C100_failed_json title formats body ansi json d e : contains nl title = false -> Forall writable body -> Forall (fun x => x <> "```") (split_on nl d) ->
  asked "ansi" formats = true -> ansi = Ok d -> asked "json" formats = true -> json = Err e ->
  exists p, page title formats (map println body) ansi json = (p, Err e) /\ shown p = [body; split_on nl d].
Proof. exact (failed_json title formats body ansi json d e). Qed.
Print Assumptions C100_failed_json.


Example C100_case : split_on nl example_text =
  ["??? example ""Points"""; "    === ""PYTHON"""; "        ``` python linenums=""1"" "; "        x = 1"; "        "; "        y = 2"; "        ```"; "";
   "    === ""TEXT"""; "        ``` ansi linenums=""1"""; "        A"; "        ```"; "";
   "    === ""JSON"""; "        ``` json linenums=""1"""; "        {"; "        }"; "        ```"; ""; ""] /\
  shown example_text = [["x = 1"; ""; "y = 2"]; ["A"]; ["{"; "}"]] /\ Forall writable ["x = 1"; ""; "y = 2"].
Proof.
  split; [vm_compute; reflexivity|]. split; [vm_compute; reflexivity|].
  repeat (constructor; [split; [reflexivity|discriminate]|]). constructor.
Qed.
Example C100_blank_case : code 9 ([ln "import gsp"] ++ ln "with mkdocs():" :: [ln "    x = 1"; ln "  "; ln "    y = 2"] ++ [ln "print()"]) 2 = Some [ln "x = 1"; ""; ln "y = 2"] /\
  shown (fst (page "T" [] [ln "x = 1"; ""; ln "y = 2"] (Ok "") (Ok ""))) = [["x = 1"; "        y = 2"]].
Proof. split; vm_compute; reflexivity. Qed.
