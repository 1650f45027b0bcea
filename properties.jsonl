{"id": "C01", "title": "A selector group matches through its most specific member", "statement": "Matching an element against a comma-separated selector group reports a match exactly when at least one member matches, and then the reported specificity is the specificity of a matching member that no other matching member exceeds.", "quantifier": "every element of every document, every selector group of any length, every specificity triple", "why_tests_cant": "Groups and specificities are unbounded; tests only use a handful of one or two member groups and never look at the returned specificity.", "anchors": ["gopher_render/_selectors.py:tag_matches", "gopher_render/_selectors.py:_more_specific", "gopher_render/_selectors.py:_compare_specificity"]}
{"id": "C02", "title": "The renderer used for an element is the one of the most specific matching rule", "statement": "For any table of (selector, renderer spec) rules, the renderer chosen for an element is the one given by the matching rule, among those that name a renderer, with the highest specificity; among equally specific rules the one listed last in the table wins. No renderer is chosen exactly when no matching rule names one, and then the default renderer is used.", "quantifier": "every rule table (size, order, specificities), every element", "why_tests_cant": "Ties, None renderers and arbitrary table orders form an unbounded space; stability of the sort is an all-inputs property.", "anchors": ["gopher_render/_parser.py:RendererMap.get_for_tag", "gopher_render/_parser.py:GopherHTMLParser._get_renderer", "gopher_render/_selectors.py:Specificity"]}
{"id": "C03", "title": "Settings cascade key by key", "statement": "Whenever a renderer is chosen through the rule table, each setting passed to it comes from the matching rule that sets that key with the highest (specificity, table position), independently for each key; keys set by no matching rule are absent. A settings-only rule also reaches an element whose renderer is the default one.", "quantifier": "every rule table, every element, every setting key", "why_tests_cant": "The cascade is a per-key maximum over arbitrarily many rules; examples cannot cover interactions.", "anchors": ["gopher_render/_parser.py:RendererMap.get_for_tag", "gopher_render/_parser.py:TagParser.assign_renderer"]}
{"id": "C04", "title": "Text nodes and the document root never match a selector", "statement": "No selector whatsoever (including *, :not(...), attribute selectors, combinators) matches a text node or the implicit document root, so a rule can only style elements.", "quantifier": "every selector of any depth, every text node, every document", "why_tests_cant": "Requires induction over all selector shapes.", "anchors": ["gopher_render/_selectors.py:_selector_matches", "gopher_render/_selectors.py:_negation_matches", "gopher_render/_parser.py:DataParser", "gopher_render/_parser.py:DocumentParser"]}
{"id": "C05", "title": "Selector matching is CSS matching", "statement": "For type, universal, class, id, :not, descendant, child, general-sibling, adjacent-sibling, :first-child and :last-child selectors, in any nesting, an element is matched exactly when the CSS definition says so: relations refer to element ancestors and element siblings only, text is invisible. Matching such a selector never raises.", "quantifier": "every selector built from those forms, every document tree the parser can build, every element", "why_tests_cant": "Both trees and selectors are unbounded recursive structures.", "anchors": ["gopher_render/_selectors.py:_selector_matches", "gopher_render/_selectors.py:_descendant_matches", "gopher_render/_selectors.py:_child_matches", "gopher_render/_selectors.py:_general_sibling_matches", "gopher_render/_selectors.py:_adjacent_sibling_matches", "gopher_render/_selectors.py:_first_child_matches", "gopher_render/_selectors.py:_last_child_matches"]}
{"id": "C06", "title": ":nth-child and :nth-last-child select by element position", "statement": ":nth-child(k) matches exactly the k-th element child of its parent (k>=1) and :nth-last-child(k) the k-th from the end; for k<=0 neither matches anything.", "quantifier": "every integer k, every element of every document", "why_tests_cant": "All integers and sibling counts; negative and zero indices hit Python's wrap-around list indexing, which tests never try.", "anchors": ["gopher_render/_selectors.py:_nth_child_matches", "gopher_render/_selectors.py:_nth_last_child_matches"]}
{"id": "C07", "title": "Attribute selectors compare values as CSS defines", "statement": "[a], [a=v], [a~=v], [a|=v], [a^=v], [a$=v], [a*=v] match exactly the elements whose attribute satisfies the CSS relation; in particular an empty v in ^=, $= and *= matches nothing, and testing a valueless attribute never raises.", "quantifier": "every attribute name and value, every operator, every element", "why_tests_cant": "All pairs of strings; the empty string and valueless attribute are the corner cases tests skip.", "anchors": ["gopher_render/_selectors.py:_attribute_matches"]}
{"id": "C08", "title": "Specificity comparison is the lexicographic total order", "statement": "Comparing two specificities yields -1, 0 or 1 according to the lexicographic order of the triples; the comparison operators on Specificity objects are consistent with each other, antisymmetric, transitive and total, so sorting by them is well defined.", "quantifier": "every pair/triple of integer triples", "why_tests_cant": "Order laws quantify over all triples of values.", "anchors": ["gopher_render/_selectors.py:_compare_specificity", "gopher_render/_selectors.py:_compare", "gopher_render/_selectors.py:Specificity"]}
{"id": "C09", "title": "The tree keeps every tag and text run, once, in document order", "statement": "After any sequence of start tag, end tag and text events, walking the document tree in preorder yields exactly the start tags and text runs that were fed, each once, in feed order - however badly nested the input.", "quantifier": "every event sequence (well formed or not)", "why_tests_cant": "Arbitrary, arbitrarily malformed event histories.", "anchors": ["gopher_render/_parser.py:GopherHTMLParser.handle_starttag", "gopher_render/_parser.py:GopherHTMLParser.handle_endtag", "gopher_render/_parser.py:GopherHTMLParser.handle_data", "gopher_render/_parser.py:GopherHTMLParser.close"]}
{"id": "C10", "title": "Balanced markup is parsed to the tree it denotes", "statement": "Feeding the events of a well-formed document (every non-void element closed, br and img never closed) builds exactly that document tree: same nesting, same attributes, same order.", "quantifier": "every finite document tree", "why_tests_cant": "Unbounded depth and width.", "anchors": ["gopher_render/_parser.py:GopherHTMLParser.handle_starttag", "gopher_render/_parser.py:GopherHTMLParser.handle_endtag", "gopher_render/_parser.py:GopherHTMLParser._get_top"]}
{"id": "C11", "title": "A stray end tag is ignored", "statement": "An end tag whose name differs from the innermost open element's changes nothing: the same events with the stray end tag removed give the same document tree and the same open elements (text whitespace handling included).", "quantifier": "every event history, every stray end tag", "why_tests_cant": "Quantifies over all histories before and after the stray tag.", "anchors": ["gopher_render/_parser.py:GopherHTMLParser.handle_endtag"]}
{"id": "C12", "title": "br and img are void", "statement": "br and img elements never have children, need no end tag, and an explicit </br>, </img> or self-closing form changes nothing.", "quantifier": "every event history", "why_tests_cant": "Any history.", "anchors": ["gopher_render/_parser.py:TagParser.__init__", "gopher_render/_parser.py:GopherHTMLParser.handle_endtag"]}
{"id": "C13", "title": "Link references are numbered 1,2,3,... in document order", "statement": "Every link or image whose placement is not inline gets a reference number; numbers are assigned 1,2,3,... in document order across both kinds, without gaps or repeats; inline ones consume no number.", "quantifier": "every event history, every combination of placements", "why_tests_cant": "Unbounded histories and placement combinations.", "anchors": ["gopher_render/_parser.py:GopherHTMLParser.handle_starttag"]}
{"id": "C14", "title": "Every footer link is listed exactly once in the footer, in order", "statement": "With footer placement for links (resp. images), the output ends with one entry per link (resp. image) in reference order, and no entry for anything else; a reference marker in the text never dangles.", "quantifier": "every event history, every placement combination", "why_tests_cant": "Unbounded histories.", "anchors": ["gopher_render/_parser.py:GopherHTMLParser.handle_starttag", "gopher_render/_parser.py:GopherHTMLParser.close"]}
{"id": "C15", "title": "reset() makes the parser as good as new", "statement": "After reset(), feeding a document and closing gives exactly the output a freshly constructed parser with the same options gives, whatever was fed before.", "quantifier": "every history before reset, every document after", "why_tests_cant": "Quantifies over all pairs of histories.", "anchors": ["gopher_render/_parser.py:GopherHTMLParser.reset", "gopher_render/_parser.py:GopherHTMLParser.__init__"]}
{"id": "C16", "title": "close() is idempotent", "statement": "Calling close() again without feeding anything leaves the rendered result unchanged.", "quantifier": "every history", "why_tests_cant": "Any history.", "anchors": ["gopher_render/_parser.py:GopherHTMLParser.close"]}
{"id": "C17", "title": "Whitespace in running text is collapsed, nothing else is touched", "statement": "Text outside pre contains, after parsing, no newline, no tab and no two consecutive spaces; its non-whitespace characters are unchanged and in order; collapsing already collapsed text changes nothing; a single leading/trailing separator survives.", "quantifier": "every text run", "why_tests_cant": "All strings.", "anchors": ["gopher_render/_parser.py:DataParser.__init__"]}
{"id": "C18", "title": "Preformatted text is kept verbatim", "statement": "Text inside a pre element is stored character for character, in any well-nested document; whitespace handling outside pre is unaffected by pre elements elsewhere.", "quantifier": "every well-nested document and text run", "why_tests_cant": "Any nesting; the implementation uses a flag rather than the nesting.", "anchors": ["gopher_render/_parser.py:GopherHTMLParser._in_pre", "gopher_render/_parser.py:GopherHTMLParser.handle_endtag", "gopher_render/_parser.py:DataParser.__init__"]}
{"id": "C19", "title": "How text is chopped into feed() calls does not matter", "statement": "Delivering one text run in several pieces gives the same rendered document as delivering it in one piece.", "quantifier": "every text run, every split point", "why_tests_cant": "All splits of all texts.", "anchors": ["gopher_render/_parser.py:GopherHTMLParser.handle_data", "gopher_render/_parser.py:DataParser.__init__"]}
{"id": "C20", "title": "Invalid gophermap configurations are rejected, all others accepted", "statement": "Constructing a parser raises ValueError exactly when output_format is 'gophermap' and (link_placement is 'inline' or gopher_host is empty).", "quantifier": "every combination of option strings", "why_tests_cant": "All option values.", "anchors": ["gopher_render/_parser.py:GopherHTMLParser.__init__"]}
{"id": "C21", "title": "Wrapped lines fit the width", "statement": "With long-word breaking on and indents shorter than the width, every line produced by wrapping has visible length (ANSI escapes not counted) at most the width; for text without escapes the plain length is bounded.", "quantifier": "every text, every width >= 1, every indent shorter than the width, every other wrapping option", "why_tests_cant": "Unbounded texts, widths, option combinations.", "anchors": ["gopher_render/_textwrap.py:AnsiAwareTextWrapper._wrap_chunks", "gopher_render/_textwrap.py:_len", "gopher_render/_textwrap.py:wrap"]}
{"id": "C22", "title": "Wrapping never loses or reorders text", "statement": "The non-whitespace characters of the wrapped lines, read in order, are exactly those of the input (indents being whitespace), for every option combination without max_lines.", "quantifier": "every text, width and option combination", "why_tests_cant": "All inputs.", "anchors": ["gopher_render/_textwrap.py:AnsiAwareTextWrapper._wrap_chunks"]}
{"id": "C23", "title": "Wrapping always terminates", "statement": "wrap() returns (or raises ValueError for a non-positive width) for every text, width, indent and option combination.", "quantifier": "every text, width, indent and option combination", "why_tests_cant": "Non-termination cannot be observed by a test; needs a variant.", "anchors": ["gopher_render/_textwrap.py:AnsiAwareTextWrapper._wrap_chunks"]}
{"id": "C24", "title": "Words that fit are not broken", "statement": "If every whitespace-separated word of the text fits on a line and contains no hyphen (or hyphen breaking is off), the words of the wrapped lines are exactly the words of the text; and lines are filled greedily: the first word of a line would not have fitted on the previous one.", "quantifier": "every text and width", "why_tests_cant": "All texts.", "anchors": ["gopher_render/_textwrap.py:AnsiAwareTextWrapper._wrap_chunks"]}
{"id": "C25", "title": "Full justification fills lines exactly", "statement": "For escape-free text, every line but the last that contains a gap is exactly `width` characters; the last line and gapless lines are as wrapped; the number of lines equals the wrapped number.", "quantifier": "every text and width", "why_tests_cant": "All texts, widths and gap distributions.", "anchors": ["gopher_render/rendering.py:full_justify"]}
{"id": "C26", "title": "Full justification only widens gaps", "statement": "Full justification keeps the words of every line in order, never removes a gap between two words, and gap widths on a line differ by at most one character beyond the original spacing, wider ones first - also for text with ANSI styling.", "quantifier": "every text and width", "why_tests_cant": "Negative padding appears only for escape-styled text, which tests never justify.", "anchors": ["gopher_render/rendering.py:full_justify"]}
{"id": "C27", "title": "Left, right and center justification", "statement": "left keeps wrapped lines; right and center pad each wrapped line with spaces to exactly the width (escape-free text), right flush at the right edge, center with left and right padding differing by at most one; the text of each line is unchanged.", "quantifier": "every text and width", "why_tests_cant": "All texts.", "anchors": ["gopher_render/rendering.py:left_justify", "gopher_render/rendering.py:right_justify", "gopher_render/rendering.py:center_justify", "gopher_render/rendering.py:right", "gopher_render/rendering.py:center"]}
{"id": "C28", "title": "ANSI styling does not change where lines break", "statement": "Wrapping styled text breaks at the same places as wrapping the same text without styling: removing the escapes from the wrapped lines gives the wrapped unstyled text.", "quantifier": "every chunk sequence, every placement of escapes inside words, every width", "why_tests_cant": "All placements of escapes.", "anchors": ["gopher_render/_textwrap.py:_len", "gopher_render/_textwrap.py:AnsiAwareTextWrapper._wrap_chunks"]}
{"id": "C29", "title": "Available width under nesting", "statement": "For any chain of nested boxes, the width is the outermost box's; the inner width is that minus the sum of left and right margins, paddings and borders along the chain; the wrap width additionally subtracts every line template of the nested boxes; creating a nested box never changes its ancestors.", "quantifier": "every chain of boxes of any depth, every sizes", "why_tests_cant": "Unbounded nesting depth.", "anchors": ["gopher_render/rendering.py:Box"]}
{"id": "C30", "title": "A bordered block is rectangular", "statement": "A block directly under the page renders every line of its bordered area with exactly the same length, page width minus its margins, provided each content line fits the inner width; padding and border rows have the same length.", "quantifier": "every content, every non-negative sizes and border strings", "why_tests_cant": "All contents and sizes.", "anchors": ["gopher_render/rendering.py:BlockRenderer._border_render", "gopher_render/rendering.py:BlockRenderer._outer_render"]}
{"id": "C31", "title": "Nested blocks stay inside the page", "statement": "Blocks nested in blocks with margins, padding, borders or line templates never produce a line longer than the page width, as long as every inner width is positive.", "quantifier": "every nesting of blocks and settings", "why_tests_cant": "Unbounded nesting; tests never nest padded or bordered blocks.", "anchors": ["gopher_render/rendering.py:Box.padded_width", "gopher_render/rendering.py:Box.bordered_width", "gopher_render/rendering.py:BlockRenderer._border_render"]}
{"id": "C32", "title": "Headings", "statement": "An hN element (N=1..6) with default settings renders as N hashes, space, content, space, N hashes on its own line with a blank line before and after.", "quantifier": "every heading content, every level", "why_tests_cant": "All contents.", "anchors": ["gopher_render/rendering.py:MarkdownHeaderRenderer", "gopher_render/rendering.py:HeaderRenderer._inner_render"]}
{"id": "C33", "title": "Ordered list items are numbered consecutively", "statement": "The k-th li of an ol is labelled start_index + (k-1)*step, whatever whitespace separates the items, with start_index and step from the applicable settings.", "quantifier": "every list content and interleaving of text, every start/step", "why_tests_cant": "Tests only feed lists without whitespace between items and with default settings.", "anchors": ["gopher_render/rendering.py:OrderedListItemRenderer", "gopher_render/_parser.py:DataParser"]}
{"id": "C34", "title": "Inline markup wraps content in its marker", "statement": "em/i/u/ins render as _content_, strong/b as **content**, s/del as ~~content~~, span as content, br as one newline, exactly, for any content (braces included), in any context.", "quantifier": "every content and nesting", "why_tests_cant": "All contents, including format metacharacters.", "anchors": ["gopher_render/rendering.py:InlineRenderer.render", "gopher_render/rendering.py:EmRenderer", "gopher_render/rendering.py:StrongRenderer", "gopher_render/rendering.py:UnderlineRenderer", "gopher_render/rendering.py:StrikethroughRenderer", "gopher_render/rendering.py:BreakRenderer"]}
{"id": "C35", "title": "Code and preformatted blocks", "statement": "A code span outside pre is wrapped in backticks (fenced if it spans lines); inside pre it is unchanged; each line of a pre block appears in order, indented by the same 4 columns, otherwise verbatim.", "quantifier": "every content", "why_tests_cant": "All contents.", "anchors": ["gopher_render/rendering.py:CodeRenderer", "gopher_render/rendering.py:PreRenderer"]}
{"id": "C36", "title": "Every line of a quotation is marked", "statement": "Every line of the rendered content of a blockquote is prefixed with '> ', for any content, including nested quotations (one marker per level).", "quantifier": "every content and nesting depth", "why_tests_cant": "Unbounded depth.", "anchors": ["gopher_render/rendering.py:BlockQuoteRenderer"]}
{"id": "C37", "title": "optimise only removes trailing whitespace", "statement": "With optimise on, the result has the same lines as with it off, each with its trailing whitespace removed, and nothing else changed; no line ends in whitespace.", "quantifier": "every document and option set", "why_tests_cant": "All outputs.", "anchors": ["gopher_render/_parser.py:GopherHTMLParser._optimise_parsed"]}
{"id": "C38", "title": "Page margins", "statement": "The result is the rendered body with the page's left margin in front of every line, preceded by top-margin and followed by bottom-margin newlines.", "quantifier": "every document and page box", "why_tests_cant": "All documents.", "anchors": ["gopher_render/_parser.py:GopherHTMLParser._indent_body", "gopher_render/_parser.py:GopherHTMLParser.close"]}
{"id": "C39", "title": "Renderer settings follow class inheritance", "statement": "The settings of a renderer instance are those of its classes with the most derived definition of each key winning, overridden by the settings of the rule table; other instances and classes are not affected.", "quantifier": "every class hierarchy and settings dictionaries", "why_tests_cant": "Arbitrary hierarchies; equality between unrelated settings dictionaries matters.", "anchors": ["gopher_render/rendering.py:Renderer.__new__", "gopher_render/rendering.py:_RendererMeta", "gopher_render/rendering.py:Renderer._adjust_settings"]}
{"id": "C40", "title": "namedict is one map with two access syntaxes", "statement": "For names that are not attributes of dict, any sequence of item and attribute reads, writes and deletes behaves as on a single map; a read after a write through either syntax gives the written value; a failed attribute access raises AttributeError, a failed item access KeyError.", "quantifier": "every operation sequence, every non-reserved name", "why_tests_cant": "All histories.", "anchors": ["gopher_render/_namedict.py:namedict"]}
{"id": "C41", "title": "HTML colours are decoded exactly", "statement": "'#rrggbb' (any case, with or without '#') denotes the triple (r,g,b) and '#rgb' the triple with each digit doubled; named colours map to their ANSI code, +10 for background; integers select the 8-bit palette entry.", "quantifier": "every hexadecimal string, every palette number", "why_tests_cant": "16.7M colours.", "anchors": ["gopher_render/rendering.py:_parse_html_colour", "gopher_render/rendering.py:_get_sequence_for_colour"]}
{"id": "C42", "title": "ANSI styling is applied and then fully undone", "statement": "On a terminal in its default state, the content of an ANSI-styled span (itself without escapes) is displayed with exactly the configured effects and colours, and afterwards the terminal is back in its default state, for every combination of effects, with or without normalise.", "quantifier": "every combination of 13 effects and colours, every content", "why_tests_cant": "2^13 effect sets times all colours and contents.", "anchors": ["gopher_render/rendering.py:AnsiEscapeCodeRenderer.render", "gopher_render/rendering.py:ansi_escape_sequences"]}
{"id": "C43", "title": "ANSI styling is invisible to length measurement", "statement": "The visible text (escapes removed) of an ANSI-styled span is the visible text of its content; nested spans included.", "quantifier": "every content, every setting, any nesting depth", "why_tests_cant": "All contents.", "anchors": ["gopher_render/rendering.py:AnsiEscapeCodeRenderer.render", "gopher_render/_textwrap.py:_len"]}
{"id": "C44", "title": "Links point where the href says", "statement": "http/https and unknown-scheme links become type h with selector 'URL:'+href on the local host and port; relative links keep their path on the local host and port; gopher links use the URL's host, path and port, port 70 when the URL has none.", "quantifier": "every href", "why_tests_cant": "All strings.", "anchors": ["gopher_render/_parser.py:LinkParser._parse_href"]}
{"id": "C45", "title": "Gopher item types follow the file extension", "statement": "The type of a gopher link depends only on the extension of the last path component: none -> 1, html/htm -> h, gif -> g, jpg/jpeg/png/bmp/tiff -> I, txt/csv/tsv/md -> 0, anything else -> 9.", "quantifier": "every path", "why_tests_cant": "All strings; dots in directory names are never tested.", "anchors": ["gopher_render/_parser.py:LinkParser._guess_type"]}
{"id": "C46", "title": "Gophermap link lines are well-formed records", "statement": "In gophermap output every extracted link is one line with exactly four tab-separated fields: type+label, selector, host, port.", "quantifier": "every link text, title, href and option set", "why_tests_cant": "All strings; titles with tabs or newlines.", "anchors": ["gopher_render/rendering.py:ExtractedLinkRenderer", "gopher_render/rendering.py:ExtractedImageLinkRenderer"]}
{"id": "C47", "title": "Link descriptions are truncated with an ellipsis", "statement": "The footer description of a link is its trimmed text when that has at most max_link_description characters, otherwise its first max_link_description characters followed by '...'.", "quantifier": "every link text and limit", "why_tests_cant": "All texts.", "anchors": ["gopher_render/rendering.py:ExtractedLinkRenderer._inner_render", "gopher_render/rendering.py:ExtractedImageLinkRenderer._inner_render"]}
{"id": "C48", "title": "Rule-table settings reach extracted and inline link renderers", "statement": "Settings given for a link in the rule tables change how that link is rendered in the footer or inline.", "quantifier": "every settings dictionary for links", "why_tests_cant": "Any key; tests never configure link renderers.", "anchors": ["gopher_render/_parser.py:LinkParser.link_render"]}
{"id": "C49", "title": "No text is lost", "statement": "With the built-in renderers, whenever close() returns, the non-whitespace characters of all text fed (outside void elements) appear in the result in order, for every document however malformed, any page box, any placement.", "quantifier": "every event history, page box and placement", "why_tests_cant": "All documents.", "anchors": ["gopher_render/_parser.py:GopherHTMLParser.close", "gopher_render/_parser.py:TagParser.render", "gopher_render/rendering.py:BlockRenderer.render"]}
{"id": "C50", "title": "Paragraph text fits the page", "statement": "With the built-in renderers, every line of a document made of paragraphs and arbitrarily nested blockquotes and divs of paragraphs with inline markup is at most the page width wide, as long as the innermost wrap width is positive.", "quantifier": "every such document and page width", "why_tests_cant": "Unbounded nesting and text.", "anchors": ["gopher_render/rendering.py:ParagraphRenderer._inner_render", "gopher_render/rendering.py:BlockQuoteRenderer", "gopher_render/rendering.py:Box"]}
{"id": "C51", "title": "The command line tool writes the rendering of the source to the destination", "statement": "gopher-render SRC DST leaves the rendering of SRC in DST; Markdown is converted first exactly when the file name ends in .md.", "quantifier": "every source file and name", "why_tests_cant": "All names and contents.", "anchors": ["gopher_render/cli.py:main"]}
{"id": "C52", "title": "Shipped themes never make rendering fail", "statement": "Every rule of every shipped code theme is accepted by the ANSI renderer: rendering any content with it returns. And for every document, under the stock rules and under each theme, once the handlers have taken it rendering raises exactly when the text of some paragraph, list item or definition on the page has no columns, and then it raises ValueError. So a document whose quotations, definitions and items (two columns each, numbered items their number too) are nested less deep than the page is wide is always rendered, with every theme. The same exact statement holds for source text, where the reader and the handlers may fail too.", "quantifier": "every rule of every theme, every content; every document, page box and other options", "why_tests_cant": "All contents for a few hundred rules, and all documents and widths.", "anchors": ["gopher_render/code_themes", "gopher_render/rendering.py:AnsiEscapeCodeRenderer.render"]}
{"id": "C53", "title": "The reference shown in the text is the reference listed in the footer", "statement": "The number printed in the text at a link and the number of its footer entry are the same for every link and image not placed inline.", "quantifier": "every document and placement", "why_tests_cant": "All documents.", "anchors": ["gopher_render/rendering.py:LinkRenderer.render", "gopher_render/rendering.py:ExtractedLinkRenderer._inner_render", "gopher_render/rendering.py:ImageRenderer.render"]}
{"id": "C54", "title": "Rendering succeeds whenever there is room", "statement": "With the built-in renderers, feeding any events whose class attributes have values, whose link targets are parseable and whose links to be listed after their block stand inside some element, and closing, neither raises nor hangs, exactly when the wrap width stays positive at every wrapped element; otherwise it raises ValueError.", "quantifier": "every such event history, any page box and placement", "why_tests_cant": "All documents.", "anchors": ["gopher_render/_parser.py:GopherHTMLParser.close", "gopher_render/_parser.py:GopherHTMLParser.handle_starttag", "gopher_render/rendering.py:ParagraphRenderer._inner_render"]}
{"id": "C55", "title": "Vertical spacing", "statement": "Each block element contributes exactly its top margin newlines before and bottom margin newlines after its bordered content, and its left margin in front of every line.", "quantifier": "every content and margins", "why_tests_cant": "All contents.", "anchors": ["gopher_render/rendering.py:BlockRenderer._outer_render"]}
{"id": "C56", "title": "NonRenderer suppresses its element", "statement": "An element mapped to NonRenderer contributes nothing to the output, whatever it contains (provided its content renders), and removing such an element's own subtree from the tree leaves the rest of the output unchanged.", "quantifier": "every content", "why_tests_cant": "All contents.", "anchors": ["gopher_render/rendering.py:NonRenderer.render"]}
{"id": "C57", "title": "Every tag and text is attached to the innermost open element", "statement": "At any point of any history, a start tag or text run becomes a child of the element that is innermost open at that point (opened by a start tag of a non-void element and not yet closed by a matching end tag or close()), or of the document when none is open; this never changes later.", "quantifier": "every event history, every position in it", "why_tests_cant": "ranges over all histories, however malformed, and all later events", "anchors": ["gopher_render/_parser.py: GopherHTMLParser.handle_starttag", "gopher_render/_parser.py: GopherHTMLParser.handle_data", "gopher_render/_parser.py: GopherHTMLParser.handle_endtag"]}
{"id": "C58", "title": "The line limit of the wrapper", "statement": "With max_lines = m the ANSI-aware wrapper returns at most max(1, m) lines; they are all the lines of the text, or some of the first of them followed by one line ending with the placeholder (without its leading white space).", "quantifier": "every text, width, indents, options, placeholder and limit for which wrapping does not raise ValueError", "why_tests_cant": "ranges over all texts and limits; the stopping rule interacts with dropped white space at the end of the text", "anchors": ["gopher_render/_textwrap.py: AnsiAwareTextWrapper._wrap_chunks"]}
{"id": "C59", "title": "Nested ANSI spans restore the surrounding style", "statement": "Inside nested ANSI-styled spans every effect and colour asked for by the spans around a character is in force, and after an inner span ends the rendition of the span around it is back.", "quantifier": "every tree of nested spans, every settings, every starting rendition", "why_tests_cant": "unbounded nesting and 2^13 effect combinations per level; off codes are shared between effects", "anchors": ["gopher_render/rendering.py: AnsiEscapeCodeRenderer.render", "gopher_render/rendering.py: ansi_escape_sequences"]}
{"id": "C60", "title": "The output is a function of the document tree", "statement": "For a parser with the library's own renderers, whatever its links, images, output format, box and optimise settings, the output of feeding any events and closing is the page defined compositionally over the document tree: each element's text is its own layout (heading marks, wrapped paragraph, quotation prefix, list label, definition, code, link reference or target) applied to the text of its children in order, links numbered in document order, listed after their block or at the foot, and the page then framed by its margins; or else the exception of the first start tag that cannot be accepted, or of the first text that has no room.", "quantifier": "all event histories (balanced or not), all markup trees, all constructor options without user renderers or extracted renderers, all Unicode tables", "why_tests_cant": "The claim composes every element with every other at any depth and width; tests check a handful of documents.", "anchors": ["gopher_render/_parser.py:GopherHTMLParser", "gopher_render/rendering.py", "gopher_render/_parser.py:TagParser"]}
{"id": "C61", "title": "A caught exception does no lasting damage", "statement": "If a caller catches the exception raised for a start tag the library cannot accept and carries on, the page is the one that the accepted events alone give; a close() that raises leaves the output, the tree and the collected links as they were and raises again when called again; after reset() the parser behaves as new whatever was raised before.", "quantifier": "every configuration, every sequence of events and of feed/close/reset calls with every pattern of failures", "why_tests_cant": "Every crash point in every history; the half-done updates of a handler that raised stay in the parser object.", "anchors": ["gopher_render/_parser.py: GopherHTMLParser.handle_starttag", "gopher_render/_parser.py: GopherHTMLParser.close", "gopher_render/_parser.py: GopherHTMLParser.reset"]}
{"id": "C62", "title": "An error while feeding is not swallowed, and feed always returns", "statement": "feed() returns for every text in every reachable state, raising at most AttributeError, ValueError or AssertionError; and if a feed raised, the text that was not handled is still there and a following close() raises too instead of presenting a shortened page as complete.", "quantifier": "every text, every reachable parser state, every configuration", "why_tests_cant": "Unbounded malformed source text at every chunk boundary.", "anchors": ["gopher_render/_parser.py: GopherHTMLParser.feed (html.parser.HTMLParser.goahead)", "gopher_render/_parser.py: GopherHTMLParser.close"]}
{"id": "C63", "title": "Every way of writing a document gives the page of the document", "statement": "Source text that writes a document according to the usual rules (names in any case, attributes quoted, bare or without a value, white space in tags, character references by name or number, comments, document type and processing instructions between elements, the slash form, script and style with raw text) produces what the document's elements and texts produce; so two spellings of one document give one page, and a document written out with escapes is read back unchanged.", "quantifier": "every document and every source text that writes it, every configuration", "why_tests_cant": "Unboundedly many documents and spellings; the tokenizer's attribute and reference rules interact with what follows.", "anchors": ["gopher_render/_parser.py: GopherHTMLParser (feed, handle_starttag, handle_startendtag, handle_data, close)", "html.parser.HTMLParser"]}
{"id": "C64", "title": "The frame of a block is drawn exactly as set", "statement": "A block renderer with any border, padding and margin settings draws: the top margin as newlines, one full-width row per character of the top border, the top padding rows, each content row between the left and right border after the left padding and filled up to the inner width, the bottom padding rows, the rows of the bottom border, the bottom margin; every row behind the left margin. Nothing else and in this order.", "quantifier": "every content, every border, padding and margin, every surrounding box, every class and rule settings", "why_tests_cant": "Settings are four unbounded strings and eight unbounded numbers, contents and nesting unbounded.", "anchors": ["gopher_render/rendering.py: BlockRenderer._border_render, BlockRenderer._outer_render, BlockRenderer.render"]}
{"id": "C65", "title": "Heading decoration follows the settings", "statement": "A heading shows its text in capitals, spread and put in its template as set; it is centred in the room when asked; the underline is exactly as long as the heading text after the template was applied, or as the room when full; a Markdown heading's template has as many hashes as its tag's digit says.", "quantifier": "every text, every combination of the heading settings, every surrounding box", "why_tests_cant": "Unbounded texts, templates, gaps and widths; the order of the steps only shows for some combinations.", "anchors": ["gopher_render/rendering.py: HeaderRenderer._inner_render, MarkdownHeaderRenderer._adjust_settings, spread, center, capitalize"]}
{"id": "C66", "title": "Paragraph, item, definition, pre and quotation settings", "statement": "Text blocks are wrapped with exactly the indents, justification and wrapper options set, in the columns left by margins, padding, borders and the label; every row of a paragraph or quotation is put in the line template, of an item or definition the first row, the others are indented by the label's width; pre lines are indented as set and put in the template; a paragraph holding just code is left alone when set so.", "quantifier": "every content, every setting of these renderers, every surrounding box", "why_tests_cant": "Unbounded contents, widths, templates and setting combinations.", "anchors": ["gopher_render/rendering.py: ParagraphRenderer._inner_render, ListItemRenderer._inner_render, OrderedListItemRenderer, DefinitionListItemRenderer._inner_render, PreRenderer._inner_render, BlockQuoteRenderer._inner_render"]}
{"id": "C67", "title": "Inline and link templates are filled with the right values", "statement": "Inline elements, code, line breaks, links, images and listed links render as their template (as set, chosen by content, placement, title and format) filled with the element's text, address, title, reference number, description cut to the maximum set, and gopher target; nothing else is added.", "quantifier": "every template, every content, title, address and number, every placement and format", "why_tests_cant": "Unbounded templates and values; the choice between templates depends on combinations.", "anchors": ["gopher_render/rendering.py: InlineRenderer.render, CodeRenderer.render, BreakRenderer.render, LinkRenderer.render, ImageRenderer.render, ExtractedLinkRenderer, ExtractedImageLinkRenderer, NonRenderer.render"]}
{"id": "C68", "title": "Templates mean what they say", "statement": "A template that consists of text with braces doubled and of places without names, with numbers or with names becomes that text with the places replaced by the values, whatever characters the values contain: values are not read as templates again.", "quantifier": "every template, every list of arguments and every dictionary of named values", "why_tests_cant": "Unbounded templates and values, including values with braces.", "anchors": ["gopher_render/rendering.py: settings.template.format and the other template.format calls"]}
{"id": "C69", "title": "White space before wrapping", "statement": "With expand_tabs each tab is replaced by spaces up to the next multiple of tabsize, counted from the last line end; with replace_whitespace every remaining tab, newline, vertical tab, form feed and carriage return becomes one space; wrapping depends on the two options in no other way.", "quantifier": "every text, tab size and wrapper configuration", "why_tests_cant": "Columns depend on everything before; unbounded texts.", "anchors": ["gopher_render/_textwrap.py: TextWrapper (textwrap.TextWrapper._munge_whitespace)"]}
{"id": "C70", "title": "The page under any rule tables", "statement": "With rule tables, settings and renderer classes of the caller, each element is shown with the class and settings that the cascade gives it (most specific rule, latest of equals, key by key; else the default), inside the room its ancestors leave, with its links numbered and listed where they are placed; the page is these looks in document order, the footer links, and the page margins. That page is produced; and when the settings have the right shape (templates with known placeholders, four-part margins, known justifications), rendering produces nothing else: it returns a page exactly when there is such a page. The shipped tables and all the code themes have that shape.", "quantifier": "every document and history of handler calls, every pair of rule tables with supported selectors, every renderer class and settings dictionary", "why_tests_cant": "All combinations of rules, documents and settings.", "anchors": ["gopher_render/_parser.py: GopherHTMLParser.close, TagParser.render, LinkParser.link_render", "gopher_render/_selectors.py", "gopher_render/rendering.py"]}
{"id": "C71", "title": "The layout of a wrapped text", "statement": "The ANSI-aware wrapper breaks a text exactly where white space starts or ends and, with break_on_hyphens, after a hyphen that has two letters (or two letters joined by a hyphen) on each side and around a dash of two or more hyphens between words; with fix_sentence_endings a single space after a sentence becomes two. Each line takes as many pieces as fit after the indent, dropping blank pieces at the start of all but the first line and at line ends when drop_whitespace is set; a piece wider than a line is cut at the room left, or after the last hyphen that fits, or given its own line; at the line limit the line is shortened to make room for the placeholder. These rules determine the answer completely: the wrapper returns those lines and no others.", "quantifier": "every text, width, indents, option values, tab size, placeholder and limit", "why_tests_cant": "All texts and option combinations; an equivalence in both directions.", "anchors": ["gopher_render/_textwrap.py: AnsiAwareTextWrapper._wrap_chunks, _len, wrap", "Python textwrap.TextWrapper._split, _munge_whitespace, _fix_sentence_endings, _handle_long_word"]}
{"id": "C72", "title": "Character references mean what HTML says", "statement": "In text and attribute values each reference is replaced by what it stands for: decimal and hexadecimal numbers by the character (0, surrogates and too large numbers by U+FFFD, 128 to 159 by the Windows-1252 characters, control characters and noncharacters by nothing), a name of the HTML table by its text, a longer name whose beginning is in the table by the text of the longest such beginning and the rest, and anything else by itself; all other characters stay. The only failure is ValueError for a decimal reference of more than 4300 digits.", "quantifier": "every text", "why_tests_cant": "Unbounded texts and numbers, over 2000 names and their prefixes.", "anchors": ["gopher_render/_parser.py: GopherHTMLParser (html.parser.HTMLParser with convert_charrefs)", "Python html.unescape"]}
{"id": "C73", "title": "What the regular expressions find", "statement": "Break points, ends of sentences, escape sequences, runs of blanks, tags, attributes, comments, marked sections and the ends of script and style elements are exactly what the regular expressions of the code and of the library it uses find, leftmost and with Python's order of preference between the ways to match.", "quantifier": "every text and every place in it", "why_tests_cant": "All texts; backtracking has unboundedly many ways to match.", "anchors": ["gopher_render/_textwrap.py: _ansi_escape, AnsiAwareTextWrapper", "gopher_render/_parser.py: GopherHTMLParser.handle_data", "Python textwrap, html.parser, _markupbase, html"]}
{"id": "C74", "title": "What is read in any source text", "statement": "Whatever text is fed, in whatever pieces and after whatever calls, the handlers are called as the specification of reading says: tags with lower case names and their attributes in order, text with references replaced, script and style content as it stands up to its own end tag, comments and declarations ignored, broken markup as text, and an unfinished construct or reference kept for the next piece or, on close, given as text. Each text has one reading, and the rendered page is the page of the tree that these calls denote.", "quantifier": "every source text, every history of calls before it", "why_tests_cant": "All texts, including malformed ones, and all histories.", "anchors": ["gopher_render/_parser.py: GopherHTMLParser.feed, close, handle_starttag, handle_endtag, handle_data", "Python html.parser.HTMLParser.goahead, parse_starttag, parse_endtag"]}
{"id": "C75", "title": "What any selector makes of any place", "statement": "At every node of every document each selector matches, does not match, or raises one of AttributeError, TypeError, IndexError and ValueError, as a definition over document trees says: class and id tests, attribute operators with and without value, negation, first and last child, nth-child with any argument (counting from the other end for 0 and below), combinators asked from the right, siblings before the node, ancestors outwards. Closing a document asks all selectors at all nodes in document order, and when one raises, closing raises what the first of them raises.", "quantifier": "every selector, every document, every node, every table of rules", "why_tests_cant": "All selectors nested without bound against all trees.", "anchors": ["gopher_render/_selectors.py: selector_matches, tag_matches, _attribute_matches", "gopher_render/_parser.py: RendererMap.get_for_tag, GopherHTMLParser.close, _assign_renderers"]}
{"id": "C76", "title": "Where any href points", "statement": "Every href of a link or image - and a missing one - leads to one target or is refused with a ValueError, as a reading of the whole href says: leading blanks and tabs or line ends anywhere are dropped; the scheme is what stands before a colon if it looks like one, in any case; the authority follows two slashes; user names, brackets, zones and ports in it are honoured and unbalanced brackets, bad addresses and impossible ports refused; the path loses its parameters, query and fragment; the item type is told by the extension of the path. Without a scheme the target is on the host and port of the parser, with scheme gopher on those of the href, with any other it is an h item.", "quantifier": "every href, host and port, every history of calls", "why_tests_cant": "All strings as hrefs.", "anchors": ["gopher_render/_parser.py: LinkParser._parse_href", "Python urllib.parse.urlparse, urlsplit, SplitResult.hostname, SplitResult.port"]}
{"id": "C77", "title": "The rules and options a parser is set up with", "statement": "A rule given to the constructor takes the place of the stock rule with the same selector text, keeping its position; every other stock rule stays; new rules come after the stock ones in the order given; the rule with the empty selector is the default renderer; the same holds for extracted links, where the rule for a is the fallback. Every other option is kept as given, the width is ignored, and a parser made without arguments renders text 67 columns wide with links in the footer, images inline and port 70. The selectors of every shipped rule are those its CSS text says.", "quantifier": "every table of rules, every combination of options; every shipped rule", "why_tests_cant": "All tables a caller may give.", "anchors": ["gopher_render/_parser.py: GopherHTMLParser.__init__", "gopher_render/code_themes/*.py: renderers"]}
{"id": "C78", "title": "Exactly the end tags that close nothing are reported", "statement": "Feeding prints one line, naming the tag, for every end tag (other than br and img) that does not match the innermost open element, in the order they are read, and prints nothing else; a document in which every element is closed prints nothing; an exception that the caller catches does not change which later end tags are reported.", "quantifier": "every history of handler calls, exceptions caught included; every source text", "why_tests_cant": "All histories.", "anchors": ["gopher_render/_parser.py: GopherHTMLParser.handle_endtag"]}
{"id": "C79", "title": "A renderer class of the caller's is used as documented and is interchangeable with any that behaves alike", "statement": "A class written by the caller that overrides render (or, for a block, _inner_render) is handed the element's name, attributes, merged settings, boxes and link context and the text of its children, and what it returns (framed, for a block) is what the page shows there; an exception it raises is what closing the parser raises, once everything before it has been shown. Replacing any class in either table by one that behaves alike changes neither [parsed] nor any exception, for any sequence of feed, close and reset; a subclass that overrides nothing behaves like its base.", "quantifier": "every caller's class whose method is a function of the element's own name, attributes, settings, boxes, link context and content; every pair of tables; every sequence of calls", "why_tests_cant": "All methods, all tables and all call sequences; the classes are not known to the library.", "anchors": ["gopher_render/rendering.py: Renderer.__new__, Renderer.render, BlockRenderer.render, BlockRenderer._inner_render", "gopher_render/_parser.py: TagParser.render, LinkParser.link_render, RendererMap.get_for_tag"]}
{"id": "C80", "title": "Exactly which exception is raised", "statement": "When the settings in the tables have the right shape, rendering any source text has exactly one outcome and the specification says which: the page, or the exception of the first handler call that fails, else of broken markup, else of the first selector that raises, else of the first place of the page where something goes wrong - an element without renderer (TypeError), a markdown heading whose tag has no level, a numbered label that cannot be filled, a template place that cannot be filled (IndexError, KeyError or ValueError by what is asked for), a link renderer on what is not a link (KeyError), text that cannot be laid out in the columns left, a list of links without default, or a caller's method that raises.", "quantifier": "every source text, every history of handler calls, every rule table with settings of the right shape, all options and all classes of the caller's", "why_tests_cant": "Which of several faults surfaces depends on document order, nesting and the order of evaluation; tests can only pin single faults in single documents.", "anchors": ["gopher_render/_parser.py: GopherHTMLParser.close, TagNode.render", "gopher_render/rendering.py: all render and _inner_render methods"]}
{"id": "C81", "title": "Exactly how a text is set in columns", "statement": "For every text, width, wrapper settings and justification name there is exactly one outcome and the specification says which: the text itself (none); its layout in that many columns with each line left as it is (left), moved to the right edge (right), centred with the odd space on the left in an odd number of columns and on the right in an even number (center), or, but for the last line, stretched between its words as evenly as possible with the wider gaps first (full); KeyError for another name; ValueError when there are no columns or no room for the mark of a shortened text; or no return at all, which happens exactly when long words are broken and either blanks are dropped, the first indent is wider than the line and the text starts with a blank, or blanks are kept, later indents are wider than the line, no limit is set and the text does not fit on the first line.", "quantifier": "every text, width, wrapper configuration and justification name", "why_tests_cant": "Line breaks, gaps and non-termination depend on all the characters of the text and on nine settings at once.", "anchors": ["gopher_render/rendering.py: _left_justify, _right_justify, _center_justify, _full_justify", "gopher_render/_textwrap.py: _TextWrapper._wrap_chunks"]}
{"id": "C82", "title": "Exactly which control sequences surround a styled span", "statement": "For every settings dictionary of a terminal style and every text there is exactly one outcome and the specification says which: the sequences of the effects that are on in a fixed order, of the colour of the text and of the colour behind it, the text unchanged, and then either one reset or the sequences that switch off what was switched on; or, in this order, an exception for a setting that is missing, an effect that is missing, a font that is set, a text colour or a background that is no colour. A colour is one of sixteen names, hash signs followed by three or six hexadecimal digits (pairs read like Python reads integers, with signs, blanks and digits of other scripts), an integer, or a tuple of at least three.", "quantifier": "every settings dictionary and text; every value as a colour", "why_tests_cant": "Thirteen effects, two colours and reset combine freely and colours are arbitrary strings and values.", "anchors": ["gopher_render/rendering.py: AnsiEscapeCodeRenderer.render, _parse_html_colour, _get_sequence_for_colour"]}
{"id": "C83", "title": "Exactly what a parser does under any sequence of feed, close and reset", "statement": "For every sequence of calls of feed, close and reset on one parser, with the exceptions caught by the caller, what each call raises, what attribute parsed holds and what text is kept for later are given by a small state: the document read since the last reset, the open elements, whether texts are verbatim, what closing has put together, the text not read yet. A start tag that raises is left out and is met again by every later call until reset; closing ends all elements and lays out the whole document after what was laid out before, keeping what it got to before an exception; reset empties everything except that verbatim texts stay verbatim. Condition on the tables: settings have the usual shape, and a renderer written without settings is the default only if no rule that stops applying as the document grows gave an element a renderer (true of the library's tables, the code themes, and all tables whose renderers are given to selectors without :last-child and function pseudo-classes).", "quantifier": "every sequence of calls and texts, every option set and tables as described", "why_tests_cant": "Histories are unbounded and the effect of a call depends on all calls before it, including failed ones.", "anchors": ["gopher_render/_parser.py: GopherHTMLParser.feed, close, reset, handle_starttag, handle_endtag, handle_data", "html/parser.py: HTMLParser.goahead"]}
{"id": "C84", "title": "Exactly what any template string makes of the text put into it", "statement": "For every template string in the settings and every text, number or missing value put into it there is exactly one outcome and the specification says which. Text outside places stands as it is and doubled braces become one; a place is filled with the argument it names (the next one, one by number, one by name, characters of it by index), converted if asked, and laid out by its format specification (fill, alignment, sign, base, width, precision), which may contain places itself, one level deep; otherwise the first thing that is wrong decides which exception is raised. In particular the text that is put in is never read as a template, and aligning never cuts a text.", "quantifier": "every template string; every list of arguments and dictionary of named arguments made of strings, integers and None", "why_tests_cant": "Templates are arbitrary strings chosen by the caller, with nesting, numbering that depends on the places before, and texts that may contain braces themselves.", "anchors": ["gopher_render/rendering.py: InlineRenderer.render, LinkRenderer.render, ImageRenderer.render, HeaderRenderer._render, ListItemRenderer, OrderedListItemRenderer.__init__, PreformattedRenderer, BlockquoteRenderer, ExtractedLinkRenderer._render", "CPython: str.format"]}
{"id": "C85", "title": "What a formatter makes of a call, and what the text of a box tells", "statement": "For every formatter, the base class or a subclass with methods of its own, and every call there is exactly one outcome: format is asked last, with the words of the last class attribute, the settings and the box that the two other methods gave; a class attribute without a value raises AttributeError before any method is asked, and otherwise the first method that raises decides. The base class returns the content unchanged and passes on a box that measures like the box around it. Two boxes that are shown alike have the same margins, padding, borders, width and room inside.", "quantifier": "every formatter, tag, content and keyword arguments; every box", "why_tests_cant": "Subclasses are arbitrary code and attribute lists and contents are unbounded.", "anchors": ["gopher_render/rendering.py: Formatter, Box.__repr__"]}
{"id": "C86", "title": "With sensible tables the only failure is text without room", "statement": "Take rule tables in which every template can be filled with what it is given, colours exist, numbered headings, links and images get their own renderers and listed links have one. Then for every document that handlers and selectors take without an exception, rendering raises only at a place on the page where text is laid out and has no columns (ValueError) or an indent wider than its columns (no end). Where it has no columns rendering does raise, so tables without indents fail exactly then, and a page with room everywhere is produced. In particular, when the blocks around every element take together fewer columns than the page has, the page is produced. For source text the only further failures are those of the reader and of the handlers.", "quantifier": "every table of that kind, every page box and option, every history of handler calls", "why_tests_cant": "Tables, nesting depths, widths and documents are unbounded, and the claim is that nothing else can go wrong.", "anchors": ["gopher_render/_parser.py: GopherHTMLParser", "gopher_render/rendering.py: all renderers"]}
{"id": "C87", "title": "The text and value operations are Python's", "statement": "Stripping removes exactly the white space at the ends; splitting at a character, at white space and at line ends gives exactly the pieces in between, with every line-end sequence counted once (CR LF as one); joining, prefix, suffix and substring tests, partition from either side, case change of ASCII text, decimal numerals, truth, equality and dictionary reading and writing are what Python's language reference says, for every text and value.", "quantifier": "every text over all code points, every separator, every number, every value and every dictionary", "why_tests_cant": "The classes of white space and line ends range over all code points and the pieces over texts of any length; every other property is read through these operations, so an error in one of them would hide in both the program and what is said of it.", "anchors": ["gopher_render/rendering.py: uses of strip, split, splitlines, upper, rjust", "gopher_render/_parser.py: uses of strip, split, splitlines", "gopher_render/_selectors.py: split of class lists", "gopher_render/_namedict.py: namedict"]}
{"id": "C88", "title": "More room never hurts, and every document has a least width", "statement": "With tables that indent nothing and whose settings raise nothing on the page, a document that is rendered on one page is rendered on every page with at least as many columns. Every document the handlers and selectors take has a least width: on pages of that many columns and more it is rendered, on narrower ones rendering raises ValueError and nothing else. This holds for the shipped tables and all code themes without further conditions, for source text as well.", "quantifier": "every document, every source text, every pair of page sizes, every such tables", "why_tests_cant": "It compares the outcomes of all pages of all widths for all documents; a test renders a few documents at a few widths, and layout could fail at some width in between.", "anchors": ["gopher_render/rendering.py: Box", "gopher_render/rendering.py: ParagraphRenderer, ListItemRenderer, OrderedListItemRenderer, DefinitionRenderer", "gopher_render/_parser.py: GopherHTMLParser.__init__, close"]}
{"id": "C89", "title": "On a terminal a page ends as it began and shows only its text", "statement": "A page of the stock rules made from a document without control characters contains no control sequence, in the text format and as a gophermap. With the ANSI renderer, and with each shipped code theme, a terminal that displays the page reads only complete control sequences, shows no part of them as text, and is back in the normal rendition at the end - whenever the elements around styled ones pass text on as it is: block, inline, code, pre and quotation renderers do, paragraphs and items do when no styled word is broken. Headings, links and their lists do not.", "quantifier": "every document, every rule table and settings of the stated shape, every page size and format, every initial attribute of text inside", "why_tests_cant": "One element that cuts or rewrites a control sequence spoils the rest of the session of the reader; whether one does depends on nesting, widths, templates and settings, of which tests see a few.", "anchors": ["gopher_render/rendering.py: AnsiEscapeCodeRenderer", "gopher_render/rendering.py: ParagraphRenderer, HeaderRenderer, ExtractedLinkRenderer", "gopher_render/_textwrap.py: AnsiTextWrapper", "gopher_render/code_themes"]}
{"id": "C90", "title": "A text fed in any pieces is read as the specification says, and empty pieces change nothing", "statement": "Whatever pieces a text is fed in, there is exactly one sequence of handler calls they make: each piece is read after the text that was kept back, and what is kept back when the parser is closed is read as final. The output is what those calls give - the page of the tree they denote under the stock rules - and the exceptions are, in this order, those of the handlers, of the reading, and (under the stock rules and the shipped themes) text without room. Feeding an empty piece at any time changes nothing. A wider page never turns a success into a failure.", "quantifier": "every list of pieces of every text, every option set, every table for the reading and empty pieces; the stock tables and shipped themes for the failures", "why_tests_cant": "There are exponentially many ways to cut a text, and markup, references and raw elements can be cut at every character.", "anchors": ["gopher_render/_parser.py: GopherHTMLParser.feed, close", "html/parser.py: goahead, feed, close"]}
{"id": "C91", "title": "Deep nesting: exactly which documents exceed a limit on nested calls, and no others are affected", "statement": "The nesting of a document is the greatest number of elements open around a start tag or text, plus one; unclosed tags nest. If a limit on nested calls is greater than the nesting, assigning renderers and rendering by recursion over the tree give exactly the page or exception of the unlimited program. If it is not, closing never gives a page: it raises RecursionError, or what a selector raises at an element that is reached earlier; under the stock rules and the shipped themes always RecursionError. Raising the limit never changes a page or another exception. Whatever the limit, a source text of that many unclosed paragraphs exceeds it.", "quantifier": "every limit, every history of handler calls, every source text, every option set and table; the stock tables and shipped themes for the exact condition", "why_tests_cant": "The failure appears only beyond a depth that tests do not reach, and that no smaller document is affected is a statement about all of them.", "anchors": ["gopher_render/_parser.py: GopherHTMLParser._assign_renderers, close", "gopher_render/_parser.py: TagParser.render, LinkParser.render, link_render"]}
{"id": "C92", "title": "The command line: every argument list has exactly the specified outcome", "statement": "Every list of arguments either starts the tool with a source, a destination and the flag, or shows the help and ends with status 0, or is refused with status 2; in the last two cases no file is read. It starts exactly when the arguments are two words and otherwise only -d, --dump, a beginning of it, or -d repeated in one argument; the flag may stand anywhere, is set iff it occurs, and arguments after a first -- are words whatever they look like. Arguments that begin with a hyphen are words if they are negative numbers or hold a space. Spellings of the same option can be exchanged. Help is shown if it is asked for before any refused option and no argument before a first -- begins with --=. The destination makes no difference to the run.", "quantifier": "every list of argument strings, every converter and file contents", "why_tests_cant": "The outcome depends on all arguments at once: order, abbreviations, run-together letters, values, numbers and --; there are unboundedly many combinations.", "anchors": ["gopher_render/cli.py: _parse_arguments, main"]}
{"id": "C93", "title": "The tool as a whole: from arguments and file to the printed page or the exception", "statement": "For every argument list that starts the tool, every file and every converter: the tool reads the source, prints the HTML if the flag is set, then the reports of stray end tags and last the page, exactly when the HTML is read to its end, no start tag has a class without value and no link or image has an address that cannot be read, and the rules give the document a page. It ends with an exception exactly when there is a bad start tag (the first decides which: AttributeError or ValueError), or else reading the HTML fails (ValueError or AssertionError), or else some text has no room (ValueError); no other exceptions occur within the limit on nested calls. Documents nested less deep than the 67 columns are printed, and so is every file of text without < and &. Under a limit on nested calls a run is the same if the document is nested less deep than the limit, and otherwise, if nothing else stops it before, ends in RecursionError after printing all but the page. If the HTML holds no ESC and nothing with a class is inside headings, paragraphs, items, terms, definitions or links, the printed page leaves the terminal in the style it found.", "quantifier": "every argument list, every file content, every converter, every document", "why_tests_cant": "Success and failure are characterised for all arguments and all files together; tests can only show single runs.", "anchors": ["gopher_render/cli.py: main, _parse_arguments", "gopher_render/_parser.py: GopherHTMLParser.feed, close, handle_starttag"]}
{"id": "C94", "title": "The menu or list of references at the foot of a page has one line for each link, in order, numbered 1, 2, 3...", "statement": "With the library's own rules, links at the foot, images in the text and no margin on the left: a gophermap page is the text followed by a new line and one line for each link of the document, in document order; the k-th line has exactly four fields separated by tabs: item type, [k] and the title (or the text of the link cut to ten characters); selector; host; port of what the href points to. A page of text (with the removal of trailing blanks) is the text, an empty line, and one line [k] description: address \"title\" for each link, in order. Without links the page is the text alone; the empty lines of the bottom margin come last. This holds if titles, texts and addresses of the links have no tabs or newlines, and links without a title (for pages of text: all links) contain only text and emphasis (em, i, u, ins, strong, b, s, del, span, nested in any way).", "quantifier": "every document (history of handler calls, or source text), every width, host, port", "why_tests_cant": "The number, order and form of the lines is claimed for any number of links anywhere in any document.", "anchors": ["gopher_render/_parser.py:GopherHTMLParser.close", "gopher_render/_parser.py:GopherHTMLParser.handle_starttag", "gopher_render/rendering.py:ExtractedLinkRenderer", "gopher_render/rendering.py:LinkRenderer"]}
