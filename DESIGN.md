# Formal model of gopher-render: design

Property texts are in `properties.jsonl` (C01...). This file says what is modelled, how each
property is stated and proved, and what has to be trusted. Line numbers refer to /repo at the
pinned commit; stdlib behaviour is CPython 3.11 (the `textwrap`, `urllib.parse`, `html.parser`
sources of that release).

## Model shape

* Strings are lists of Unicode code points (`str := list N`). Character classes are concrete for
  ASCII and (where the full Unicode set is small: whitespace, line boundaries) for all of Unicode;
  `\w`, `\d`, `str.upper`, `str.lower` above U+007F are a parameter (`Uni` record), so every theorem
  holds for every Unicode database.
* Python exceptions are values (`res A := Ok a | Err e`). Loops that might not terminate take fuel and
  return `Err EFuel` when it runs out; theorems exclude or exhibit that result explicitly.
* The DOM is an arena (list of node records) with parent/children indices, i.e. object identity is
  index equality, exactly as `is` / mutable `children` lists are used by the code.
* Settings are dynamically typed values (`val`) in ordered association lists.
* HTML tokenisation (`html.parser`, `_markupbase`, `html.unescape`) is modelled in `Tokenizer`, so that
  `feed` takes source text in any pieces (`Feed`). Most properties are stated over the event
  sequence (start tag, end tag, data, close, reset), the ones about source text over `feed`.
* CSS selector parsing (`cssselect`) and Markdown are outside the model: its input is the selector
  AST and the HTML text they produce. `argparse` is modelled for the tool's three arguments (`Args`).

## Per-property plan

| id | modelled | statement / proof |
|----|----------|-------------------|
| C01 | `tag_matches`, specificity | iff + maximality, induction over the group |
| C02,C03 | `RendererMap.get_for_tag` incl. stable sort | winner = max (specificity, position); the default-renderer half of C03 is expected to be refuted |
| C04 | `_selector_matches` | induction over selectors |
| C05 | all matching functions on the arena | equivalence with a declarative CSS semantics (`Spec`) on reachable arenas |
| C06 | nth-child functions with Python indexing | proved for k>=1, refuted for k<=0 |
| C07 | `_attribute_matches` | proved for non-empty operand, refuted for empty / valueless |
| C08 | `_compare_specificity` | lexicographic order laws |
| C09,C10,C12 | handlers on the arena | simulation by a zipper, preorder invariant, serialise/parse round trip |
| C11 | `handle_endtag` | proved for tags other than pre, refuted for pre |
| C13,C14 | link bookkeeping | invariant over histories; footer completeness refuted for image-only footer |
| C15,C16 | `reset`, `close` | state equality modulo the pre flag; refutations |
| C17 | `DataParser.__init__` | string induction |
| C18 | pre flag | proved for documents without nested pre, refuted in general |
| C19 | data events; `feed` of source text in pieces | refuted at four kinds of cuts; proved for all others: pages of trees whose texts are cut agree (`SplitFacts`), and the tokenizer waits at every cut inside markup or a reference (`Chunk*`) |
| C20 | constructor | decision |
| C21-C24,C28 | full textwrap pipeline incl. both regex splitters | invariants of the wrap loop; termination by measure; C23 expected to be refuted for indents wider than the width |
| C25-C27 | justification functions | arithmetic of divmod distribution; C26 expected to be refuted for styled text |
| C29 | `Box` | induction over chains |
| C30,C31,C55 | `BlockRenderer` | line-length lemma; C31 expected to be refuted |
| C32,C34-C36 | renderers | equational |
| C33 | ordinal | refuted with whitespace; proved without text children |
| C37,C38 | `close` post-processing | equational |
| C39 | `Renderer.__new__` | per-key MRO lookup; refuted when two classes have equal settings |
| C40 | `namedict` | refinement to a map |
| C41-C43 | ANSI renderer | decoding by hex arithmetic; terminal (SGR) semantics; escape stripping |
| C44-C46 | urlparse + `_parse_href` + gophermap templates | case analysis; default port refuted |
| C47,C48 | extracted link renderers | equational; C48 expected to be refuted |
| C49,C50,C53,C54 | whole pipeline, through PageSpec (C60) | induction over document trees |
| C60 | compositional page specification over document trees | refinement: render_doc = page for every event history |
| C51 | CLI as a trace of effects and an exception; suffix of a path, line ends, configuration, reading and page | refuted (destination never written); what is printed instead is characterised for every source: the page that C74 and C70 give |
| C52 | theme tables, generated from the sources; whole documents under them | finite sweep over rules, all contents; documents from C86, with tables checked by computation |
| C56 | NonRenderer | render recursion |
| C61 | `step_x`, `run_x`: every handler with the state it leaves when it raises | invariant over histories with failures; refuted for pre |
| C62 | `goahead` with `rawdata` and the cdata mode | the unconsumed text starts at the failing markup; determinism of the tokenizer |
| C63 | the tokenizer on source text | `written` (SourceSpec) relates documents and source text; induction over it: each construct is read as one call and the rest stays; a printer shows every document can be written |
| C64-C67 | every renderer class with arbitrary settings | pictures over typed settings (`DressSpec`); total correctness of `render_inst` |
| C68 | `str.format` | templates as lists of pieces; parsing what the printer writes |
| C69 | `_munge_whitespace` | columns as a relation; wrapping does not depend on the two flags otherwise |
| C70 | the whole program with caller tables | places in a tree, CSS and cascade over places, looks as a relation (StyleSpec); induction over the tree against the arena renderer; the converse where the settings that reach an element have the right shape for it (ShapeSpec), by inverting each renderer; the shipped tables and themes checked against that shape by a proved decision procedure (ShapeCheck) |
| C71 | the whole of `_textwrap.py` (`_split`, `_fix_sentence_endings`, `_handle_long_word`, `_wrap_chunks`) | a declarative layout (LayoutSpec): where a text may be broken, stated as a relation on the text before and after the place; as many pieces as fit; cuts of overlong words; the line limit. Proved equivalent to the modelled loop in both directions |
| C72 | `html.unescape` as called for every text and attribute value | what a reference stands for as a relation (RefSpec: numbers, Windows-1252, names, longest prefix) over the matches of `charref_re`; proved equivalent to the modelled function in both directions, with the one failure (`int` and 4300 digits) |
| C73 | the regular expressions of `_textwrap.py`, `_parser.py`, textwrap, html.parser, _markupbase and html | a semantics of Python's backtracking expressions (RegexSpec: all ways to match in order of preference, look-ahead, look-behind, groups; `search`, `sub`, `split`) in which the expressions are transcribed; each hand-written recogniser of the model is proved to find what the expression finds |
| C74 | `feed`, `close`, html.parser's `goahead`, `parse_starttag`, `parse_endtag`, declarations, marked sections | a declarative reading of any text (MarkupSpec) by the expressions of C73 and the references of C72; proved to be the calls the parser makes, after any calls; with C60 this gives the page of any source text |
| C75 | every matching function, `tag_matches`, `get_for_tag`, `_assign_renderers` | a verdict (yes, no, an exception) for every selector at every place of a document tree (JudgeSpec), equivalent to the matching functions on every reachable arena; the order in which selectors are asked, and the exception that comes out |
| C76 | `urlparse` (cleaning, scheme, authority, brackets, parameters, host, port) and `_parse_href` | a relation on the whole href (HrefSpec), equivalent to the model; one target for every href; each link of every reachable tree has the target of its href |
| C77 | `GopherHTMLParser.__init__`: `dict.update` of both tables, default, options | an overlay relation on tables (SetupSpec) proved by induction over the caller's table; a small grammar of CSS text, checked against every shipped rule |
| C78 | the lines printed by `handle_endtag` (`Warn`) | an independent stack of open elements (WarnSpec); invariant of the arena, exceptions caught included |
| C79 | caller-written classes: any function of name, attributes, settings, boxes, link context and content (`KOwn`, `KOwnBlock` in `Renderers`) | bisimulation of parsers whose tables differ in alike classes (OwnAlike); induction on where something raises (TripFacts) |
| C80 | which exception rendering raises: reading, handlers, selectors, then the first place of the page where something goes wrong (TripSpec: `misfills`, `unsettled`, `trips`, `breaks`, `broken_page`) | `broken_page` implies that exception (TripFacts), and every element is shown or trips when settings have the right shape (TripMain); with C70 and C74 this decides the outcome of every source text |
| C81 | how a text is set in columns under each justification (SetSpec: `set_text`, `spread_to`, `centred`, `at_right`), when it is not (`unset`), and when the layout never ends (`caught`) | the justifying functions equal the specification (SetFacts) on top of C71; `endless` is shown to be `caught` by running the loop (SetHang). DressSpec, StyleSpec and TripSpec use these definitions, so pages (C70, C80) no longer mention model functions for this |
| C82 | the control sequences of a styled span (SgrSpec: `ansi_shown`, `colour_code`, `html_colour`, `hex_number`), and which exception otherwise (`ansi_trips`, `no_colour`) | `ansi_render` equals the specification (SgrFacts), for every settings dictionary; C70 and C80 use it |
| C83 | what one parser does under any sequence of feed, close and reset calls, exceptions caught (SessionSpec: `desk`, `hear`, `laid`, `finishes`, `takes`, `does`) | simulation between the parser (`do_calls`) and the specification's session (SessionMain): the tree invariant, exactness of pages (C70) and of exceptions (C80) for a parser that was closed before, and the fact that settings left by an earlier closing are never seen when rules last (SessionLast, SessionFacts). Without that the claim is false: `C83_lasting_needed`, an element that no rule gives a renderer any more keeps the settings of the earlier closing when the default renderer is written without settings |
| C84 | `str.format` as called at every template (`Format`) | a declarative reading of templates (FormatSpec: places, names, indices, conversions, format specifications, nesting), equivalent to the model in both directions (FormatFacts, FormatArgs, FormatMain); every theorem about templates (C64-C70, C79, C80, C83) is about any template string through it |
| C85 | `Formatter` with any methods of a subclass; `Box.__repr__` | words and the class attribute as relations (FormatterSpec), the order in which the methods are asked; both directions |
| C86 | tables with which only the lack of room is an error (SafeSpec: `good_value`, `good_class`, `suits`, `good_tables`), the places of a page with their rooms (`given`, `placed_in`) and where text has no room (`cramped`) | every case of `trips` but layout contradicts good settings (SafeFacts), induction on `breaks` (SafeMain); conversely a page that is shown is shown at every place, with one class, one set of settings and one room (SafeBack); stock and theme tables by a checker proved sound (SafeCheck), tables whose rules suit the elements they can reach by another (FitCheck); nesting: the room at a place is the page less what is around it (DepthFacts, DepthSpec) |
| C87 | the `str`, truth, equality and dictionary operations shared by model and specifications (PyStr, Values, PyBase) | each operation against its own description in StrSpec (no model function in it): induction on the text, uniqueness of the decomposition, numerals by the standard library's decimal lemmas |
| C88 | one document on two pages that differ in their box (WideSpec) | the places of both pages are the same and their rooms differ as the pages do (WideFacts); a bound on what any block takes, summed over the tables, gives a width that is enough; with C86_exact_page and C86_no_room_page |
| C89 | the whole page as a terminal reads it (AnsiSpec.display); which renderers pass control sequences on (TermSpec: `passes`, `tidy_page`) | what is read of a text as complete sequences (`reads`) is kept by stripping, splitting, wrapping, justifying and framing (TermRead, TermLay); a styled span closes what it opens (TermSpan); induction over the page (TermMain); tables are decided (TermCheck) |
| C90 | `feed` of pieces and `close` (Feed `render_pieces`) against `pieces` (PieceSpec), a relation over `reads` of MarkupSpec | induction over the pieces with the kept text and the open raw element (PieceMain); empty pieces: what was kept back is kept back again (`stable_both`, induction over `reads`); the failures from C52/C86; cleanliness of sources (TermSource) by induction over `reads` and over regular expression matches |
| C91 | `_assign_renderers` and `render` as recursions with a limit on nested calls (Walk) against `nesting` of the tree (WalkSpec) | the recursion over stored trees is the pass over their nodes (`walk`, induction over the limit and the forest), the pass is `assign_all` (node numbers are distinct), rendering needs as many calls as there are levels (`frames_enough`); nesting from the open elements through the zipper of TreeFacts |
| C92 | `_parse_arguments` (cli.py:13-19) with argparse's `_parse_optional`, `_get_option_tuples`, `consume_optional`, `consume_positionals`, `_get_values` (Args) against the meaning of single arguments and of all of them (ArgSpec) | one argument by cases (`one_argument`, `run_together`), the loop by induction over runs of words and options (`up_runs`), the end by cases (`finished`) |
| C93 | the tool as a whole: `command` (Args) over `main` (Cli), against the reading of the HTML (MarkupSpec), bad start tags and addresses (RunSpec, HrefSpec), the page (StyleSpec) and room (SafeSpec, DepthSpec); the same run under a limit on nested calls (`command_within`, RunLimit) | composition of C92, C51, C74, C52, C70, C89 and C91; the exceptions of reading by induction over `reads`; the first bad tag by induction over the calls |
| C94 | the foot of a page: `close` (_parser.py:590-634) with the renderers of extracted links, against the list of links of the tree (MenuSpec), targets (HrefSpec) and the text above it | the footer of the page of C60 by induction over the links; numbers from the order of the nodes; records by C46's lemma on fields; the removal of trailing blanks line by line |

## Files

Model files hold definitions only; `*Spec.v` hold the independent specifications; `*Facts.v` (and
`Wrap*`, `Page{Base,Elem,Text,Read,Main,Room}`, `RuleExact`, `Link{Settings,Tree,Record}`...) hold
proofs; `*Props.v` hold the property theorems, their examples and `Print Assumptions`.

| model file | code |
|---|---|
| `PyBase`, `PyStr`, `Values` | the Python built-ins used: str methods, dict, divmod, dynamic values |
| `Format` | CPython `str.format` on strings, integers and None (`unicode_format.h`, `formatter_unicode.c`) |
| `Textwrap` | CPython `textwrap.TextWrapper` + `_textwrap.py` |
| `Justify` | `rendering.py:1-100` |
| `BoxM`, `BoxHeap` | `rendering.py:94-210` (values; and a heap of mutable boxes) |
| `FormatterM` | `rendering.py:202-260` (`Box.__repr__`, `Formatter`) |
| `Settings*`, `SettingsHeap`, `Namedict` | `rendering.py:263-348`, `_namedict.py` |
| `Dom`, `Select` | `_parser.py:27-344` (state), `_selectors.py` |
| `Renderers`, `Ansi` | `rendering.py:285-1358` |
| `Url` | CPython `urllib.parse.urlparse` + `_parser.py:130-192` |
| `Parser` | `_parser.py:27-634` |
| `Entities`, `Tokenizer` | CPython `html.parser.HTMLParser`, `_markupbase.ParserBase`, `html.unescape`; the entity table is generated by `tools/mkentities.py` |
| `Feed` | `_parser.py` handlers with the state left behind by an exception; `feed`, `close`, `reset` on text |
| `Warn` | the lines printed by `handle_endtag`, `_parser.py:519-538` |
| `Cli` | `cli.py` |
| `Themes` | theme tables of the examples, generated by `tools/mkthemes.py` |
| `RepoTests` | expectations of `/repo/tests`, generated by `tools/mktests.py` (validation of the model, not proofs) |

## Trusted base

* Coq 8.16.1: kernel, `vm_compute` (used for witnesses, examples and finite tables), coqc and the
  `.vo` format. No axioms are declared; no kernel check is switched off; no plugin; no module type
  or functor.
* `Print Assumptions` on every property theorem answers "Closed under the global context": no
  property theorem depends on any axiom, the standard library's included. (`coqchk -o`
  lists the `Coq.ssr.ssrunder` module's constants because the library `ssreflect` is loaded by the
  standard library's `Lia`; no theorem uses them.)
* The correspondence between the Gallina model and the Python source. It was written by reading;
  each definition cites its lines. It has been checked against the expectations of /repo/tests
  (41 examples in `RepoTests.v`, all of which the model meets) and, for the standard library parts
  (`textwrap`, `urlparse`, `str` methods), against the CPython 3.11 sources.

### Not modelled (boundary of the model)

* Python's `re` engine: the model has hand-written matchers for the regular expressions of
  `html.parser`, `html`, `_markupbase`, `textwrap` and the code; C73 proves that they find what the
  expressions find under a semantics of backtracking expressions (RegexSpec), in which the
  expressions are transcribed. That semantics and the transcription are trusted.
  `tools/tokcheck.py` compared the tokenizer model with CPython 3.11's `html.parser` on random texts.
* `cssselect.parse`: selectors are its syntax trees, specificity included (as cssselect 1.1.0
  computes it).
* `markdown` and the file system in `cli.py`: parameters of the model.
* `argparse` beyond what the tool's parser uses (one flag, the help, two positionals); the texts of
  help and messages. `tools/argcheck.py` compared `Args` with CPython 3.11's argparse on 1500
  random argument lists; the model and the specification agreed with it on all of them.
* The text of exceptions.
* In format strings: attributes (`{a.b}`), `!r` and `!a` of strings, and of integers the types c and
  n, those of floats, and digit grouping: `EUnsupported`, a clause of its own in FormatSpec. No
  template of the library has them. `Format` was compared with CPython 3.11's `str.format` on random
  templates.
* Characters above U+007F: white space and line boundaries are Python's; `\w`, `\d`, upper and
  lower case are quantified over (`Class Uni`).
* Python's integers, strings and lists are unbounded in the model; memory is not modelled. The
  limit on nested calls is modelled for the functions that call themselves over the tree
  (Walk, C91), per function; all other theorems are about documents within it (C91_same).
* User-defined renderer classes: the model covers the built-in classes, subclasses of them
  that change `settings` only, classes that override `render` (no box) or `_inner_render`
  (blocks) by any function of the element's own name, attributes, settings, boxes, link
  context and content, and (for `Renderer.__new__`) arbitrary class hierarchies. Methods that
  read other parts of the tree, keep state, or override other methods are not modelled.

## Findings

The code as it is does not meet the following expectations; each is a machine-checked
`..._refuted` theorem or part of an exact characterisation (the theorem is named).

1. `width=` of `GopherHTMLParser` is ignored; only `box` counts (C20_constructor).
2. `nth-child(0)` and negative arguments match the wrong element or raise IndexError (C06).
3. Attribute selectors with an empty operand, on valueless attributes, on `class` (C07).
4. Elements rendered by the default renderer lose their settings-only rules (C03).
5. `</pre>` anywhere ends verbatim text although a `pre` is still open; nested `pre` (C11, C18);
   `reset()` keeps the verbatim flag (C15).
6. `close()` twice doubles the page (C16).
7. Splitting source text between two `feed` calls changes the page at white space, inside an
   attribute value that holds `>`, inside a numeric reference longer than 34 characters, and in text
   directly in an `ol` (C19).
8. An indent wider than the line makes wrapping loop forever (C23); C23_endless says exactly when.
9. Full justification uses raw lengths: styled text loses spaces (C26).
10. Padding, nested borders and adjacent blocks push text past the width (C31); adjacent blocks
    with direct text run together on one line.
11. Ordinals of `ol` count white-space text nodes; `start_index` / `step` in the rule table are
    ignored (C33).
12. `code` deeper inside `pre` gets backticks (C35).
13. Two classes with equal settings: one is skipped in the inheritance (C39).
14. A `font` setting raises NameError; palette entry 0 is ignored (C42); closing an inner span
    ends the same effect of the span around it (C59).
15. `gopher://host/` without port gives port `None` (C44); type guessed from dots in directories (C45).
16. Records after an image record are padded, a page margin shifts records, tabs in titles break
    records (C46).
17. The ellipsis is added without anything being cut (C47).
18. Settings given for extracted or inline links never reach the renderer (C48).
19. Footer images are never listed unless links are in the footer too; images pending inside an
    inline link are lost (C14).
20. White space before the first paragraph of a quotation (Markdown output has it) makes the
    first line one column too wide (C50_quotation_refuted); a paragraph that is one `code` is not
    wrapped (C50_code_refuted).
21. `after_block` placement with a link at top level raises AttributeError (C54_toplevel); a
    `class` attribute without value raises AttributeError; a box too narrow for its indentation
    raises ValueError even for empty text (C54).
22. The command line tool prints the page and never writes the destination; a file named `.md`
    is not converted (C51).
23. Links inside an element mapped to NonRenderer are still numbered and listed (C56).
24. A blank line before or after a heading is missing next to inline text; `<br>` inside a
    heading splits it (C32).
25. A `pre` tag that raised (caught by the caller) still makes what follows verbatim (C61); an error
    raised by text that follows `<script>` may be lost at the next close (C62).
26. A reference without semicolon is expanded in attribute values (`href="?a=1&copy=2"`), where HTML
    leaves it alone (copy_in_href in SourceProps).
27. The template of a line break is applied twice; a link's own template and capitals are applied
    before the link template, the capitals twice (C67_break, C67_link). A centred heading is centred
    in columns that include the labels around it (C65_heading: `heading_room`).
28. Closing a parser, feeding it more and closing it again lays out an element with the settings of
    the first closing, if a rule (`x:last-child`) gave it a renderer with settings then, no rule gives it
    one now and the default renderer is written without settings (`C83_lasting_needed`).
29. Styled text is damaged by what is around it: a word longer than the line is broken inside a
    control sequence (C89_long_word_refuted); the description of a listed link is cut before the
    sequence that ends the styling, so the rest of the terminal stays styled, with a shipped theme
    too (C89_description_refuted, C89_theme_refuted); headings in capitals change the sequences and
    spread headings take them apart (C89_capitals_refuted, C89_spread_refuted).
30. Tags that are not closed nest, and the tree is walked by recursion: whatever Python's limit on
    nested calls, that many `<p>` or `<li>` without end tags end in RecursionError when the parser is
    closed (C91_text_unclosed), under the stock rules and each theme.
31. Of the tool's arguments a `--` at the very end is refused after an option and accepted after a
    word (C92_trailing), and a destination `--` is lost, so that it is an empty list, unless the
    first `--` follows an option after the source (C92_lost). Both are argparse's; the second is
    harmless because the destination is not used (finding of C51, C92_command).
