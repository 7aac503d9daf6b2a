# Formal model of gosub-engine in Rocq (Coq 8.16.1)

The sources modelled are those in `/repo` at the pinned commit. The model was written by
reading the Rust text; nothing was extracted or executed.

## Layout

For every area `X` there are up to four kinds of files in `rocq/theories/`:

| file | contents |
|---|---|
| `XModel.v` | the functional model of the Rust code, one definition per function, each citing file and lines |
| `XSpec.v` | a small independent specification (relations, reference functions) used only in statements |
| `XProofs.v` (large areas have several) | lemmas and proofs |
| `XProps.v` | the property theorems only, each followed by `Print Assumptions` and an `Example` that shows the hypotheses are met by a concrete case |

`Base.v` holds the result type (`Ok`, `Panic`, `Diverge`), `Text.v` the spelling of texts as code
points, `Entities.v` the table of named character references, `F64.v` the Rust floating-point
operations on top of Flocq's IEEE formats, and `F64Facts.v` what is proved about them.

## Modelling conventions

* `&mut self` methods return the new state. Vectors are lists, hash maps are association
  lists or std++ `gmap`s, strings are lists of code points (`N`) or bytes.
* A Rust panic (index out of range, overflow in arithmetic we model) is an explicit
  error value; theorems about absence of panics state that it is never produced.
* Unbounded loops are fuelled; running out of fuel is an explicit value that theorems
  exclude.
* Where the order of a hash map's walk can matter it is an argument (any permutation).
* Floating point is exact: `f64` and `f32` are Flocq's `binary_float 53 1024` and
  `binary_float 24 128` with rounding to nearest even; all NaNs are one NaN.
* Threads are labelled transition systems; theorems quantify over every schedule.
* Things outside the modelled code (URL parsing, public suffix list, clock, SQLite engine,
  file system, JSON library, `sin`/`powf`) appear as function arguments or section variables that
  are generalised at section end; theorems hold for all of them (with stated hypotheses).
* Where the property is false of the code the theorem is named `..._refuted` and exhibits a
  reachable witness; the strongest true part is proved separately, with the suffix `_partial`
  where part of the property is missing.

## Per property

| id | model | proof |
|---|---|---|
| C01 | `HistoryModel`: arena list of entries, operations with explicit panic | invariant over `fold` of operations |
| C02 | same | from the invariant |
| C03 | same; forward list spec as permutation + head condition | from the invariant |
| C04 | same; frame relation | induction over operation sequences |
| C05 | same | false in general after a jump (refuted, witness); true for histories without jumps (invariant: chain of preferred children) |
| C06 | same | unfolding against the spec record |
| C07 | `ByteStreamModel`: decoder following `std::str::from_utf8` error classification | prefix-commutation lemma of the decoder, induction over chunks |
| C08 | same; `location` with hint | hint independence + line-start characterisation |
| C09 | same | case analysis |
| C10 | same | offsets sorted by induction over decoding |
| C11 | same | refuted for open streams cut in a surrogate pair; proved for cuts on pair boundaries |
| C12-C18, C53-C57 | `CookieModel`: jar as map origin -> list, `store`, `get`, with PSL, clock as arguments | RFC-style eligibility spec; invariants over operation sequences; parser inverse for headers |
| C19, C20, C58 | `CookieStoreModel`: file system with tmp+rename and crash points, stores as state machines with interleaved steps, SQLite rows | case analysis over all prefixes of the write sequence; invariants over schedules; lost updates refuted; row round trip |
| C21, C22, C59, C60 | `StorageModel`: service, per-zone/tab/partition/origin maps, handles, events | refinement to one flat map; event log equals the difference of states |
| C23, C24 | `PlacesModel` | refinement to the visit log; LIKE matcher spec |
| C25-C28, C49-C52 | `SettingsModel`, `ConfigModel`: settings, constraints, config store, subscriptions, concurrent sets | round trip, invariants, event log, schedules |
| C29-C33, C61, C62 | `DomModel`: arena, attach/detach/relocate, named ids, iterator, query, hover, classes | invariants over operation sequences |
| C34 | task queue over `DomModel` | simulation |
| C35-C37, C63, C65 | `NetModel`: decision, sniffing, routing, escaping, document buffering | case analysis, induction over strings and chunkings |
| C38, C39, C64 | `HubModel`: decision hub, request counts, reference registry as labelled transition systems | invariants over all interleavings |
| C40-C43, C66-C68 | `TokenModel`: every tokenizer state and the character reference machine, one step function | a measure for termination; a grammar of documents with a relational meaning, proved equal to the run by induction over the document |
| C44 | `QuirksModel` | against the standard's lists, for every lower-casing function with stated properties |
| C45 | `TileModel`: the budget with exact `f64` coordinates, the map's walk as an argument | sorting lemmas; sums over distinct buffers; stamps equal the history's last composite |
| C46 | `ScrollModel`: scroll state, tweens, springs, easing curves in exact `f64`/`f32` | invariant over call sequences; rounding error of the summed time bounded by induction |
| C47 | `HistoryModel` | refinement to the list-with-cursor history |
| C48 | `ByteStreamModel` | case analysis |
| C69 | `TokenModel` on `ByteStreamModel` | simulation of the list reader by the byte stream |
| C70 | `SelectorModel` on `DomModel`: the matcher with its part consumption and next-node hand-over | equations for one step of the loop; induction over the selector against `means` |
| C71 | `SelectorModel`: specificity counts and order | order laws; counting |
| C72 | `SelectorModel`: fingerprints of hover rules, hover update, style cache and repaint as a machine | invariant: recorded hover chain is the true one or neither is visible to a rule; matching does not depend on invisible chains |
| C73 | `SyntaxModel`: the matcher with its four group combinators, multipliers, comma lists and the shorthand bookkeeping that rides along; data types are an argument | soundness of each combinator against a generative semantics (`language`), by induction over the grammar; completeness of the loops for choices; `GrammarModel` reads and resolves the shipped definitions (`GrammarData`, copied by a script), and the conditions are checked on each of the 666 grammars by computation |
| C74 | `SyntaxModel`: every loop with fuel | each round takes a value or counts up to a bound; consumption lemma by induction over the grammar; for the shipped definitions the condition is computed on every resolved grammar |
| C90 | `GrammarModel.compile`; the notation is written down separately in `GrammarText` as a printer | round trip: induction over the grammar, one lemma per reader, a follow condition per level of precedence |
| C75 | `CascadeModel` on `SelectorModel` and `SyntaxModel`: the walk over sheets, rules and declarations, the list of shorthand fixes, and the computed value; data types, maths functions and rounding are arguments | the fix list of a declaration is that of its own expansion merged in (simulation through the matcher); `Iterator::max` equals the winner |
| C76 | `CascadeModel`, `SyntaxModel` (resolver steps inside the matcher), `CascadeShipped` (the definitions as the cascade uses them) | one round of the matcher per value; induction over the values; one pass over the shipped definitions |
| C77 | `CascadeModel`: custom properties from the root down | induction over the chain of ancestors |
| C78, C79 | `CascadeModel` | two runs side by side, related states |
| C80 | `CascadeModel`: nested shorthands with fuel | totality of every part; a rank bounds the nesting |
| C81, C82, C86 | `TabModel` on `HistoryModel`: the worker's commands, the load tasks with their one-shot channels, the receiving loop, redraws; a run is any list of labels; URL parsing and page layout are arguments | `move`: what one step can do; invariant linking active load, awaited receiver, tasks and events, by induction over the run |
| C83, C84, C85, C88, C89 | `TabModel` | same invariant; history steps by the lemmas of `HistoryProofs`; saving the offset changes no snapshot |
| C87 | `TabModel` | the phases of the round trip one by one; the ledger of `HistorySpec` gives the entry's offset |
| C91, C92, C96 | `LatticeModel`: placement of cells with the count of taken rows per column; vectors longer than a limit are a crash | refinement to the table model of the HTML standard (`LatticeSpec.html_section`): the counts are the cells' extents below the current row |
| C93 | `LatticeModel.build_model` over an abstract document | invariant of the fold over the children |
| C94 | `LatticeModel.compute_table_layout` with the log of `set_layout`, and `apply_recursive` with exact rationals | each logged box is found through its unique parent; lines are prefix sums |
| C95 | `LatticeModel`: column widths and row heights with exact rationals | scan of the first row equals a fold per column; sum of the shares |
| C97 | `CssTokenModel`: the tokenizer of style sheets over the decoded text, every loop fuelled | each function leaves a shorter text |
| C98 | `CssTokenModel.tokenize`; `CssTokenSpec.written` says how CSS is written, with escapes and the conditions between neighbours | induction over the spelling of each piece, then over the pieces |
| C99 | `CssTokenModel.cursor`: tokens cached on demand | invariant: the cache is a prefix of the list, the stream yields the rest |
| C100 | `CssParseModel`: every function of the parser over a position, the number of tokens fetched and the `allow` stack; `CssParseCursor` simulates the tokenizer's cursor | symbolic execution with a weakest-precondition predicate; each loop with a measure of tokens left |
| C101 | `CssParseModel.condition` with the depth of its calls to itself as a bound | induction: `(,)` written `k` times needs `k` calls |
| C102 | `CssParseModel.parse_sheet`: parser and conversion to rules | induction over the written sheet (`CssParseSpec`), position by position; witnesses |
| C103 | the same, with invalid declarations written in between | the same induction; witnesses |
| C104 | the same, with invalid rules written in between | the same induction, matching braces; witnesses |
| C105 | `GrammarModel.load_value`, `load_properties`, `resolve_component` against the relations of GrammarReferSpec | induction on the list of entries; induction on the stack with an invariant on the cached tables and on the types being read |
| C106 | `ComputedModel.get_style` (fuel for the stack) against `computed`, by recursion on the way to the root | induction on the path; monotonicity in fuel; witnesses for the refuted readings of CSS |
| C107 | `ComputedModel.encode`, `decode`, `children`, `up` on machine words as `N` | bit lemmas, then a case analysis on the kinds of nodes |
| C108 | `ComputedModel.step`, `ask`, `invalidate`, `clear`: each lock is a step | an invariant on both caches, over all histories and, a weaker one, over all schedules; witnesses |
| C109 | `DisplayModel.build` (two stacks, fuel) against the recursive `rendered` | induction on trees: processing a node leaves its result on the stack and its entries in the arena |
| C110 | `DisplayModel.traverse`, `sort_layers` on layout trees | two growth relations between lists of layers, kept by every step; a stable sort; witnesses for the refuted readings of CSS |
| C111 | `DisplayModel.find_element_at` against the painted list and `anchored_tile_pos` | induction on layers and elements from the back |
| C112 | `DisplayModel.layer_tiles` with exact numbers | floor and ceiling bound the row and column of a point; pieces by cases of max and min |
| C113 | `DisplayModel.slide`, `anchored_tile_pos` | cases of max and min, linear arithmetic |
| C114 | `CompositeModel.blend_over_argb_u32`, `scale_premul_argb_u32` on words with checked `u32` arithmetic | bits to arithmetic, then one lemma on two channels in a word and one on division by 255 |
| C115 | `CompositeModel.composite_tiles` with clipping, breaks and indices | invariants for the row, column and tile loops; the buffer is described point by point |
| C116 | `MediaModel`: callers and threads as programs of atomic steps on the shared store, all schedules | invariant: cached ids have an entry for their source, ids about to be stored are fresh and distinct; the cache only grows |
| C117 | the same machine with a trace of what is seen | invariants: pending sources have exactly one owner; each pending answer has a thread that will raise the flag; a load that began keeps its owner until the cache is filled |
| C118 | `GradientModel.color_at`, `line`, `project` with exact numbers | induction over the stops; non-linear arithmetic by signs of the direction |
| C119 | `ConsoleModel.call` over histories of calls with times | induction over the history; balanced calls leave the stack of groups alone |

## What is modelled and what is not

Modelled, function by function (each definition cites its lines): tab history
(`gosub_engine/src/engine/tab/history`), byte stream and encodings (`gosub_stream`), cookies (parsing,
jar, in-memory/JSON/SQLite stores), web storage (local, session, SQLite, events), places, settings
and configuration, the DOM document (arena, named ids, queries, task queue, hover, classes),
network decisions (sniffing, routing, viewers, decision hub, reference tracker, document buffering),
the HTML tokenizer with character references and the quirks decision, the tile budget, scrolling and
easing curves, CSS selector matching, specificity and the hover restyle, the reader of value grammars,
the loader and resolver of the shipped CSS definitions, and the
matching of declared values against property grammars, the cascade with shorthands, custom properties and `var()`,
the navigations of a tab (commands, load tasks, results, history, scroll restoration),
computed styles, generated boxes and the caches of styles (`pipeline_doc.rs`, without the text of generated boxes),
the layout of tables (`gosub_lattice`) with exact numbers in place of `f32`,
the render tree, layers, hit tests, tiles and sticky offsets (`DisplayModel`) with exact numbers in place of `f64`,
the blending of pixels and the compositing of tiles without a GPU (`CompositeModel`),
the store of images and its background threads (`MediaModel`),
the colours along a gradient (`GradientModel`),
the counters, timers and groups of the console (`ConsoleModel`),
and the CSS tokenizer and parser (numbers are kept as their text; `@font-face` is parsed but its faces are not collected).

Not modelled: the HTML tree builder beyond its use of the tokenizer, the rest of CSS, layout other than of tables, painting of tiles and
rendering backends, JavaScript, networking proper (sockets, HTTP, TLS), the tab worker apart from its navigations,
and everything that is an argument of the model (see the conventions). Source locations inside
tokens, log output and performance are left out.

## Findings

Places where the code does not do what its users may expect. Those with a theorem name are proved.

* History: going back after a jump and forward again need not retrace (`C05_*_refuted`).
* Byte stream: a closed UTF-16 stream drops an odd trailing byte; a chunk cut inside a surrogate pair is
  decoded differently (`C11_*_refuted`); `close` through the trait leaves the tail undecoded;
  `read_from_bytes` keeps old text; a lone CR is not turned into LF (`C69_lone_cr_refuted`).
* Places: SQLite's LIKE folds ASCII case only, the in-memory store Unicode case; SQLite's `length()`
  stops at NUL; ties of the clock order bookmarks differently.
* Settings: the text form of maps; a failing storage changes the value, returns an error and never
  notifies; `UInt` above `isize::MAX` slips through range checks; preloaded values are unchecked;
  merging overrides saved values; constraint parsing panics on a multi-byte first character; the JSON file
  is truncated before it is written; floats are truncated in range checks; concurrent JSON
  sets lose updates; one bad SQLite row hides all settings.
* Cookies: equal-key domain cookies of sibling origins coexist; `Max-Age` overflow; a trailing-dot host
  with an empty Domain; IP-suffix domains accepted; deletion by `Max-Age<=0` precedes the
  SameSite=None check; `remove_cookie` looks only into the exact origin's bucket; ties depend on
  the hash map's order; relative paths kept; an http origin can plant a domain cookie for https;
  unlisted suffixes cross sites.
* Cookie stores: two zones persisting at once lose updates in the JSON store, and share one temporary file;
  session cookies are persisted; a live handle resurrects a removed zone; a stale load races with
  release; SQLite loses `third_party_policy`.
* Web storage: opaque origins share areas; `Custom("")` and `Custom("top:...")` collide; a busy SQLite
  reads as `None`; an old session handle writes into a reopened area; events can be out of order
  and are sent for ignored writes.
* DOM: attaching an attached node leaves it in two lists; attaching a missing id lists it; attaching under a
  future id makes a loop (hover diverges); removing leaves the named id pointing to the deleted
  node; changed ids keep old mappings; detached elements are found; removing the root makes the walk
  panic; `remove_attribute("class")` leaves classes; `add_class` is invisible to the class
  query; the task queue rejects attributes whose value is another element's id; `clone` is shallow.
* Network: `text/javascript` scripts are blocked; attachments are rendered under the default policy;
  XHTML under nosniff is downloaded; 512 bytes cut inside a character disable text sniffing; the JSON
  viewer shows strings unescaped; counts can underflow and clean-ups get lost under relaxed ordering; a
  repeated decision token drops the earlier waiter; a document of exactly the limit is reported as too
  large.
* Tokenizer: attributes of an end tag leak into the next start tag and win (`C43_end_tag_refuted`);
  `PUBLıC` and `ſYSTEM` are accepted as keywords; the start state
  `CharacterReferenceInAttributeValue` is refused (`C42_start_state_refuted`); at the end of input entity matching sees
  the text "StreamEnd".
* Quirks: a longer system identifier counts as the listed one (`C44_longer_system_refuted`); limited
  quirks are decided before the system identifier (`C44_limited_first_refuted`).
* Scrolling: changing the style in flight leaves the page short of its goal (`C46_style_change_refuted`); one
  NaN delta makes the goal NaN for good (`C46_nan_delta_refuted`).
* Tiles: a buffer shared between positions makes the reported memory wrong (`C45_shared_refuted`); the
  remembered area of a position is that of its first tile only.
* Selectors: after a descendant combinator only the first simple selector of a compound picks the
  ancestor, and the walk does not go on when the rest fails (`C70_compound_ancestor_refuted`,
  `C70_child_then_descendant_refuted`); the same for `~` (`C70_sibling_compound_refuted`,
  `C70_sibling_chain_refuted`); text nodes count as siblings (`C70_text_between_refuted`,
  `C70_first_child_refuted`); `*` matches nodes that are not elements (`C70_universal_parent_refuted`);
  `[a~=v]`, `[a=v i]` and `[a^=""]` are wrong (`C70_word_attribute_refuted`, `C70_ignore_case_refuted`,
  `C70_empty_prefix_refuted`); attributes and pseudo-classes do not count for specificity
  (`C71_pseudo_class_refuted`); a list's first match decides its specificity (`C71_list_refuted`).
* Hover: descendants and siblings of a hovered element, and elements left by an earlier unpainted move,
  keep stale styles (`C72_descendants_stale_refuted`, `C72_two_moves_stale_refuted`, `C72_sibling_refuted`).
* Value grammars: a comma after a list inside a grammar is swallowed, `a#?` takes empty items, `!` is not
  enforced, operands never give a value back (`C73_list_inside_refuted`,
  `C73_optional_list_refuted`, `C73_something_refuted`, `C73_greedy_refuted`); a reference to a property replaces that
  grammar's own multiplier (`C73_reference_refuted`; in the shipped definitions this hits border-image,
  mask-border-width, -outset and -repeat, grid, scroll-timeline, view-timeline, animation-range and
  timeline-trigger).
* `width: calc-size(auto, 1px + 1px)` panics, and so do thirteen other size properties: the grammar reader takes the
  operator `'-'` of `<calc-sum>` for a property reference, which the matcher does not know
  (`C74_calc_size_refuted`).
- Reading a value grammar loses a multiplier inside brackets that are multiplied themselves, as in the shipped
  `<dasharray>`; a keyword that starts with `initial`, `inherit` or `unset` is split in two; `( a )` is read as `[ a ]`
  (`C90_inner_multiplier_refuted`, `C90_keyword_refuted`, `C90_parentheses_refuted`).
* Cascade: what a shorthand sets beats a later declaration of the longhand (`C75_shorthand_after_refuted`); custom
  properties ignore specificity, origin and importance (`C77_specificity_refuted`); `var(--x, blue)` takes the
  comma for the fallback, and values that use `var()` themselves are not followed (`C78_fallback_refuted`); a
  shorthand with an invalid value still sets longhands (`C79_shorthand_refuted`).
* Cascade with the shipped definitions: `border-width: 1px 2px 3px 4px` gives the top 3px, `border-color: red blue` gives
  the top blue, `inset: 1px 2px 3px 4px` puts the top at 3px (`C76_order_refuted`); `gap: 5px` leaves `column-gap` at none
  and `scroll-margin`, `background` and `margin: inherit` never reach their longhands (`C76_missing_refuted`); `border`
  loses its specificity on the way to `border-top-color` (`C75_shipped_refuted`); `corner-inline-start-shape` lists the
  wrong second longhand in the definition file; `width: calc-size(auto, 1px + 1px)` crashes styling
  (`C80_calc_size_refuted`).
* The initial values of all properties are lost: the loader looks for `initial_value`, the file says `initial`
  (`GrammarModel`, comment at `property`).
* Tab: a load that had answered before the next navigation started is still shown, filed in the history and clears the
  loading mark (`C83_superseded_page_refuted`, `C86_off_while_loading_refuted`); its failure is reported with the new
  address (`C83_superseded_failure_refuted`); superseded and cancelled navigations may never be reported as over
  (`C82_*_refuted`); an older load overrides a newer navigation within the page (`C81_fragment_refuted`).
* Tab: a blocked response leaves the tab loading for ever (`C86_blocked_refuted`).
* Tab history: reloading after a failed "back" overwrites another page's entry (`C85_failed_back_refuted`); "back" followed
  at once by "forward" makes a new entry (`C85_stale_back_refuted`); `Reload` on a fresh tab shows `about:blank` with no
  entry (`C85_fresh_reload_refuted`).
* Tab: the scroll offset of a page is lost by a second navigation before the first answers, or by going back through it
  (`C87_*_refuted`); a page without a title keeps the previous page's, also in the visited places
  (`C88_untitled_refuted`).
* Tables: a cell under a wide cell that crosses a tall one is put on top of the tall one (`C91_crossing_refuted`);
  `rowspan=0` counts as 1, `colspan` is not cut at 1000 and can exhaust memory (`C91_*_refuted`, `C96_memory_refuted`);
  cells outside rows overlap others (`C94_loose_refuted`); the content of a tall cell overflows, widths below the first
  row are ignored, too wide columns stick out of the table (`C95_*_refuted`). The adapter of the render pipeline answers
  `auto` for `border-spacing`, so a style sheet cannot change the gutters of 2px (`layouter/table.rs:219-244`, by reading).

* CSS tokenizer: non-ASCII white space and numerals are not name characters (`C98_nbsp_refuted`,
  `C98_numeral_refuted`); `\10FFFF` is replaced (`C98_last_refuted`); `URL(x)` is not a url, an escaped bracket
  ends a url, `url(a b)` is the url "ab", a bad url leaves its bracket behind (`C98_url_*_refuted`,
  `C98_bad_url_refuted`); line ends other than LF are not recognised in names and strings
  (`C98_name_line_refuted`, `C98_string_*_refuted`); NUL is not replaced (`C98_nul_refuted`).
* CSS parser (C101): `parse_condition` (condition.rs:44) calls itself without `recurse`; `@media (,)(,)(,)…` nests without bound and overflows the stack.
* CSS parser (C102): `a , b` gives the first selector a trailing descendant combinator; `[x] b` is read as `[x]b`; a comment between two values, with spaces around it, cuts off the rest of the value; `! important` and `!IMPORTANT` lose the declaration; the declaration after a nested at-rule is dropped; rules inside `@media` are never collected; a rule closed by the end of the text and rules with namespaced selectors are dropped; a sheet without rules is an error.
* CSS parser (C103): junk after a value is ignored (`b: c = 1` is kept as `b: c`); an error inside `progid:…(` leaves `allow_values_in_argument_list` set, which changes how later rules are read; a name without a colon (`a{x;b:c}`, `a{x}b{…}`) costs the declaration or the rule after it, since `expect` consumes the `;` or `}` (parser.rs:27-37).
* CSS parser (C104): `50% {}` or `& {}` at the top level rejects the whole sheet; `a, {…}` and `{…}` are accepted with an empty selector, which matches every element.
* CSS parser (not stated as theorems): the prelude of `@supports` lacks its first token and contains the `{`; `:nth-child(n-5)` gets the text `foobar` (anplusb.rs).
* Table layout (C94): a table with `width: 0` fills its space (`C94_zero_width_refuted`): `table.rs:247` makes `CssLength::Zero` of it, which `compute.rs:59-63` treats like `auto`. Found when the theorem, which had stated the width by the model's own helper, was restated after a seeded fault went uncaught.
* `rem` is always 16px, also when the root has another font size (`C106_rem_refuted`).
* A font size in percent is kept as it is; lengths in `em` then count 16px (`C106_percent_refuted`).
* A border without a colour of its own is black instead of the colour of the text (`C106_border_color_refuted`).
* A hover invalidates the styles of the hovered elements and their ancestors only, so the styles of others that depend on it
  (`a:hover b`, `a:hover + b`) stay as they were cached (`C108_untold_refuted`).
* Two threads that ask for the style of a node at once: one can miss the `style` attribute, as the cache of sheets is filled
  before the cache of attributes (`C108_threads_refuted`); and one that computes during a change can store the old style for good
  (`C108_late_refuted`). The adapter can be shared between threads, but no caller that does so was found.
* Layers are not stacking contexts: opacities do not multiply (`C110_opacity_refuted`), what fades inside a fixed element scrolls
  with the page (`C110_fixed_refuted`), a `z-index` inside a group is ignored (`C110_z_inside_refuted`) or, if its element also fades,
  competes with the whole page (`C110_z_outside_refuted`), and an image is painted over all later content of its level
  (`C110_image_refuted`).
* Hit tests use margin boxes: a click into the margin of an element hits it (`C111_margin_refuted`).
* Tiles cover the margin box of the root and are chosen by margin boxes: content that sticks out of the root is never painted
  (`C112_outside_refuted`), and with negative margins parts of an element are missing (`C112_border_refuted`).
* When the scroll offset is exactly half a device pixel, the tiles at the left or top edge of the screen are rounded away from the
  others, and the background shows through a gap of one pixel (`C115_seam_refuted`).
* Images: an `<img>` whose `src` is the text of an inline drawing replaces the drawing by the placeholder, as both are cached under
  the hash of their text (`C116_shared_refuted`); two callers of `load_media` can get different ids for a source and load it twice
  (`C116_loaded_refuted`, `C117_again_refuted`), and so for inline data (`C116_data_refuted`). If the thread of a request cannot be
  spawned, the answer is "pending" but nothing makes the page lay out again (`C117_spawn_refuted`).
* Gradients: exactly on a hard edge the colour is that of the near side, unless the edge is at the start (`C118_edge_refuted`); the
  comment in the code says the far side.
* Console: `time_end` does not end a timer, so `time` then complains that it runs already and it goes on from its first start
  (`C119_end_refuted`); a clock that is set back between `time` and `time_log` makes the subtraction panic in debug builds
  (`C119_clock_refuted`).

## Tests against wrong programs

`seeded/LOG.jsonl` has one line per edited model.

* `theorems_failed` lists the theorems that depend on a lemma whose proof script no longer goes through (or ran into a 240 s limit). It is not a proof that the theorem is false of the edited model: a script can also break for harmless reasons.
* A line with `outcome` is an edit that none of the theorems expected to fail caught. Until late in the work such attempts were not logged; the eight found in the kept outputs were added afterwards. Outputs of runs that were repeated had been overwritten, so further uncaught attempts that were later tightened may be missing.
* Edits that broke a statement or a definition, so that nothing could be concluded, are not logged.
* `apply_range` (ranges are lost) and `load_value` (a later entry replaces a type) failed no theorem at first, because C73 only spoke about the grammars after loading. C105 was added for this. `tween_step` fails none, as intended: it is a control.
* `clamp01` (negative opacities become opaque) failed no theorem at first, because C110 stated the opacity by the model's own helper. `C110_apart` now states it by minimum and maximum.
* The faults of the CSS parser were run on a copy without the proofs of C100 and C101, to save time, so those two never appear in their lines.

## Trusted base

* Coq 8.16.1's kernel (and, for `vm_compute`, its virtual machine; `coqchk` re-checks without it).
* The fidelity of the model to the Rust source (by citation, see comments), and the stated hypotheses on
  what is left as an argument.
* Libraries: the Coq standard library, std++ and Flocq (definitions and axiom-free theorems only).
* Axioms: none of our own. Standard library axioms only: the theorems on floating point (C45, C46 and
  others listed below) use the axioms of `Coq.Reals`
  (`ClassicalDedekindReals.sig_not_dec`, `ClassicalDedekindReals.sig_forall_dec`,
  `FunctionalExtensionality.functional_extensionality_dep`) and `Classical_Prop.classic`. Loading std++ and Flocq also
  brings in files with the opaque module parameters of `Coq.ssr.ssrunder.Under_rel` and
  `Coq.Reals.Rdefinitions` (`RbaseSymbolsImpl`, `RinvImpl`), which `coqchk` lists as axioms of
  the context; no theorem depends on the former.

## Assumptions of each theorem

As printed by `Print Assumptions` (the statement beneath every theorem in the `*Props.v` files).

Closed under the global context:

`C01_entries_stable`, `C01_history_total`, `C01_push_parent`, `C02_back_nearest_navigable`, `C02_push_back_forward`, `C03_forward_moves`, `C03_forward_targets`, `C04_page_data_isolated`, `C05_back_forward_partial`, `C05_back_forward_refuted`, `C06_snapshot_faithful`, `C07_chunked_equals_whole`, `C07_decoding_is_lossy_utf8`, `C07_text_survives`, `C08_line_counts_line_feeds_read`, `C08_location_is_position`, `C09_end_of_input_stays`, `C09_inside_pair_refuted`, `C09_mark_reset`, `C09_slice_keeps_position`, `C09_unread_is_inverse`, `C100_cursor`, `C100_ends`, `C101_depth_refuted`, `C102_attribute_refuted`, `C102_comma_refuted`, `C102_comment_refuted`, `C102_empty_refuted`, `C102_end_refuted`, `C102_important_refuted`, `C102_media_refuted`, `C102_nested_refuted`, `C102_reads_partial`, `C102_text_partial`, `C103_dropped_partial`, `C103_kept_refuted`, `C103_leak_refuted`, `C103_neighbour_refuted`, `C104_dropped_partial`, `C104_empty_refuted`, `C104_sheet_refuted`, `C105_followed_partial`, `C105_types`, `C106_absolute`, `C106_border_color_refuted`, `C106_computed`, `C106_current_color`, `C106_em_chain`, `C106_inherits`, `C106_local`, `C106_no_border`, `C106_percent_refuted`, `C106_rem_refuted`, `C106_says`, `C107_ids`, `C107_order`, `C107_tree`, `C108_late_refuted`, `C108_questions`, `C108_threads_partial`, `C108_threads_refuted`, `C108_threads_silent`, `C108_untold_refuted`, `C109_rendered`, `C10_offsets_increase`, `C10_seek_finds_first`, `C10_seek_tell`, `C10_set_encoding_keeps_place`, `C110_apart`, `C110_fixed_refuted`, `C110_image_refuted`, `C110_opacity_refuted`, `C110_partition`, `C110_sorted`, `C110_with_parent`, `C110_z_inside_refuted`, `C110_z_outside_refuted`, `C110_z_partial`, `C111_hit`, `C111_margin_refuted`, `C112_border_refuted`, `C112_cover`, `C112_layers`, `C112_order`, `C112_outside_refuted`, `C112_piece`, `C112_pieces`, `C113_monotone`, `C113_placed`, `C113_sticky`, `C114_bytes`, `C114_fade`, `C114_nearest`, `C114_over`, `C114_straight_refuted`, `C114_words`, `C115_frame`, `C115_opaque`, `C115_seam_refuted`, `C115_seams_partial`, `C116_answer`, `C116_apart`, `C116_data_refuted`, `C116_loaded_refuted`, `C116_shared_refuted`, `C116_stable`, `C117_again_refuted`, `C117_ends`, `C117_once`, `C117_one`, `C117_spawn_refuted`, `C117_woken_partial`, `C118_between`, `C118_edge_refuted`, `C118_ends`, `C118_line`, `C118_range`, `C119_clock_refuted`, `C119_count`, `C119_end_refuted`, `C119_groups`, `C119_safe`, `C119_timer_partial`, `C11_chunked_utf16_partial`, `C11_chunked_utf16_refuted`, `C12_exactly_eligible_sent`, `C13_header_order`, `C13_ties_refuted`, `C14_across_origins_refuted`, `C14_header_effect`, `C14_one_per_key`, `C15_not_accepted_from_plaintext`, `C15_not_sent_to_plaintext`, `C15_not_touched_by_plaintext`, `C16_prefixes`, `C17_block`, `C17_deletion_refuted`, `C17_lax`, `C17_none_only_sends`, `C17_none_only_stores`, `C17_strict`, `C18_max_age_deletes`, `C18_past_date_deletes`, `C18_purge_removes_expired`, `C18_purge_unobservable`, `C19_concurrent_refuted`, `C19_crash_atomic`, `C19_first_open`, `C19_reopen`, `C19_save_completes`, `C20_handles_isolated`, `C20_json_concurrent_refuted`, `C20_json_writes_saved_partial`, `C20_release_keeps`, `C20_release_race_refuted`, `C20_remove_forgets`, `C20_removed_returns_refuted`, `C20_same_jar`, `C20_sqlite_writes_saved`, `C20_sqlite_zones_independent`, `C21_busy_refuted`, `C21_custom_partition_refuted`, `C21_keys_partial`, `C21_local_in_memory`, `C21_opaque_refuted`, `C21_reads_partial`, `C22_drop_empties_partial`, `C22_others_untouched`, `C22_reopened_refuted`, `C23_bookmarks`, `C23_bookmarks_oldest_first`, `C23_visited_pages`, `C24_backends_agree_partial`, `C24_backends_agree_refuted`, `C24_like_is_substring`, `C25_map_refuted`, `C25_maps_exact`, `C25_parsed_is_stable`, `C25_text_round_trip`, `C26_failure_changes_nothing_partial`, `C26_get_last_set_partial`, `C26_huge_unsigned_refuted`, `C26_preloaded_unchecked_refuted`, `C26_set_accepts_partial`, `C26_storage_failure_refuted`, `C26_unknown_key_refused`, `C26_values_valid_partial`, `C27_ids_distinct`, `C27_listener_in_sync_partial`, `C27_listener_in_sync_refuted`, `C27_others_silent`, `C27_remove_notifies`, `C27_set_notifies`, `C27_unsubscribed_is_silent`, `C28_merge_additive`, `C28_saved_override_refuted`, `C29_acyclic`, `C29_traversal_ends`, `C30_attach`, `C30_attach_missing_refuted`, `C30_attach_twice_refuted`, `C30_detach`, `C30_links_agree`, `C30_next_sibling`, `C30_relocate`, `C30_remove`, `C31_count`, `C31_ids_are_new`, `C31_only_remove_removes`, `C31_removed_is_gone`, `C32_iterates_any`, `C32_iterates_document`, `C32_query`, `C32_walk`, `C32_walk_removed_root_refuted`, `C33_changed_refuted`, `C33_detached_refuted`, `C33_first_wins_partial`, `C33_found_has_id_partial`, `C33_is_found_partial`, `C33_once_had_it`, `C33_removed_refuted`, `C33_taken_away_refuted`, `C34_attribute_outcome`, `C34_direct_call_refuted`, `C34_flush_in_order_partial`, `C34_flush_returns`, `C34_other_attribute_refuted`, `C34_promised_ids`, `C35_attachment_partial`, `C35_attachment_refuted`, `C35_declared`, `C35_html_cut_refuted`, `C35_html_declared`, `C35_html_sniffed_partial`, `C35_misfit_blocked`, `C35_nosniff`, `C35_undeclared`, `C36_errors`, `C36_fits_loads`, `C36_parts`, `C36_stream_or_not`, `C37_json_ambiguous_refuted`, `C37_json_lines`, `C37_json_shown`, `C37_json_tags`, `C37_text`, `C37_text_shown`, `C38_arrives`, `C38_delivery`, `C38_once`, `C38_repeated_token_refuted`, `C38_unknown`, `C39_begin_after_close_refuted`, `C39_cleaned_partial`, `C39_exact_count`, `C39_kept`, `C39_late_store_refuted`, `C39_underflow_refuted`, `C40_in_attribute`, `C40_in_text`, `C40_scalar`, `C41_in_attribute`, `C41_longest`, `C41_table`, `C41_texts`, `C41_values`, `C41_verbatim`, `C42_start_state_refuted`, `C42_terminates_partial`, `C43_end_tag_refuted`, `C43_first_wins_partial`, `C44_limited_first_refuted`, `C44_longer_system_refuted`, `C44_standard_partial`, `C47_linear_history`, `C48_reload_partial`, `C48_reload_refuted`, `C49_constraint_round_trip`, `C49_parse_total_partial`, `C49_parse_total_refuted`, `C49_ranges_parse`, `C50_no_notification_lost`, `C50_order_refuted`, `C51_json_crash_refuted`, `C51_restart_keeps_settings_partial`, `C51_restart_refuted`, `C52_find`, `C53_header_unambiguous`, `C54_forget_url_partial`, `C54_forget_url_refuted`, `C54_remove_cookie`, `C55_stays_on_site_partial`, `C55_stays_on_site_refuted`, `C56_overflow_refuted`, `C56_store_total_partial`, `C57_deletion_understood`, `C57_header_understood`, `C58_policy_refuted`, `C58_sqlite_roundtrip`, `C59_survives_restarts_partial`, `C60_alone_exact_partial`, `C60_every_change_announced`, `C60_ignored_write_refuted`, `C60_order_refuted`, `C61_hovers_ancestors`, `C61_loop_refuted`, `C62_added_refuted`, `C62_classes_partial`, `C62_removed_refuted`, `C63_served_is_loaded_partial`, `C63_text_javascript_refuted`, `C64_bijection`, `C64_metas`, `C64_round_trip`, `C64_sound`, `C65_all_or_nothing`, `C65_chunks`, `C66_documents`, `C66_meaning`, `C67_meaning`, `C67_pages`, `C68_text_whole`, `C69_line_ends_partial`, `C69_list_is_faithful`, `C69_lone_cr_refuted`, `C70_child_places_partial`, `C70_child_then_descendant_refuted`, `C70_compound`, `C70_compound_ancestor_refuted`, `C70_empty_prefix_refuted`, `C70_exact_partial`, `C70_first_child_refuted`, `C70_ignore_case_refuted`, `C70_lists`, `C70_matching_ends`, `C70_no_extra_match`, `C70_pseudo_elements`, `C70_pseudo_lists`, `C70_sibling_chain_refuted`, `C70_sibling_compound_refuted`, `C70_states_partial`, `C70_text_between_refuted`, `C70_universal_parent_refuted`, `C70_word_attribute_refuted`, `C71_counts_partial`, `C71_list_refuted`, `C71_order`, `C71_pseudo_class_refuted`, `C72_descendants_stale_refuted`, `C72_hovering_ends`, `C72_repaints_partial`, `C72_sibling_refuted`, `C72_skips_are_safe`, `C72_two_moves_stale_refuted`, `C73_at_most`, `C73_every_property`, `C73_exact_partial`, `C73_greedy_refuted`, `C73_list_inside_refuted`, `C73_only_grammar_partial`, `C73_optional_list_refuted`, `C73_reference_refuted`, `C73_shipped_exact_partial`, `C73_shipped_partial`, `C73_something_refuted`, `C74_calc_size_refuted`, `C74_checking_ends`, `C74_needs_progress`, `C74_shipped`, `C75_cascade_partial`, `C75_longhands`, `C75_shipped_refuted`, `C75_shorthand_after_refuted`, `C76_four_sides_partial`, `C76_missing_refuted`, `C76_order_refuted`, `C76_shipped_partial`, `C76_sides_set`, `C76_two_ends_partial`, `C77_custom_properties_partial`, `C77_specificity_refuted`, `C78_fallback_refuted`, `C78_var_alone_partial`, `C78_var_partial`, `C79_invalid_ignored_partial`, `C79_shipped_refuted`, `C79_shorthand_refuted`, `C80_calc_size_refuted`, `C80_shipped`, `C80_styling_ends`, `C81_fragment_refuted`, `C81_latest_wins_partial`, `C82_cancelled_refuted`, `C82_every_reported_refuted`, `C82_latest_reported_partial`, `C82_reported_once`, `C83_page_change_partial`, `C83_superseded_failure_refuted`, `C83_superseded_page_refuted`, `C84_told`, `C85_failed_back_refuted`, `C85_filed_partial`, `C85_fresh_reload_refuted`, `C85_history_reachable`, `C85_stale_back_refuted`, `C86_blocked_refuted`, `C86_loading_ends_partial`, `C86_off_while_loading_refuted`, `C87_back_restores_partial`, `C87_back_twice_refuted`, `C87_second_thought_refuted`, `C88_title_partial`, `C88_untitled_refuted`, `C89_other_document`, `C89_reload`, `C89_same_document`, `C90_inner_multiplier_refuted`, `C90_keyword_refuted`, `C90_parentheses_refuted`, `C90_read`, `C90_shipped_partial`, `C90_unambiguous`, `C91_boundary`, `C91_colspan_refuted`, `C91_crossing_refuted`, `C91_grid_partial`, `C91_rowspan_zero_refuted`, `C91_standard_total`, `C92_inside`, `C92_no_overlap_partial`, `C92_overlap_refuted`, `C93_structure`, `C94_apart_partial`, `C94_boxes_partial`, `C94_inside_partial`, `C94_loose_refuted`, `C94_row_box_refuted`, `C94_zero_width_refuted`, `C95_columns_partial`, `C95_ignored_refuted`, `C95_overflow_refuted`, `C95_rows_partial`, `C95_tall_refuted`, `C96_memory_refuted`, `C96_returns_partial`, `C97_ends`, `C98_bad_url_refuted`, `C98_last_refuted`, `C98_name_line_refuted`, `C98_names`, `C98_nbsp_refuted`, `C98_nul_refuted`, `C98_numeral_refuted`, `C98_reads_partial`, `C98_string_feed_refuted`, `C98_string_line_refuted`, `C98_strings`, `C98_url_case_refuted`, `C98_url_escape_refuted`, `C98_url_space_refuted`, `C99_cursor`

Depend on the standard library axioms `ClassicalDedekindReals.sig_forall_dec`, `ClassicalDedekindReals.sig_not_dec`, `Classical_Prop.classic`, `FunctionalExtensionality.functional_extensionality_dep`:

`C45_any_order`, `C45_budget`, `C45_comes_back`, `C45_deferred`, `C45_deferred_number`, `C45_least_recent`, `C45_on_screen_stays`, `C45_only_evictable`, `C45_only_excess`, `C45_protects`, `C45_report_true`, `C45_settles`, `C45_shared_refuted`, `C45_untouched`, `C45_whole_positions`, `C46_idle_is_there_partial`, `C46_instant_at_once`, `C46_nan_delta_refuted`, `C46_style_change_refuted`, `C46_target_in_page`, `C46_tween_arrives`

