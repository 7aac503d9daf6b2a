{"id": "C01", "title": "History is an append-only tree and never panics", "statement": "After any sequence of navigations, back, forward, jump, title, scroll and URL updates on a fresh tab history, every operation completes without an out-of-range access; entry ids are handed out in creation order and stay valid; an entry's parent never changes and is an older entry; the entries listed as children of an entry are exactly the entries created from it, in creation order.", "quantifier": "all finite sequences of history operations with all arguments (including entry ids that were never issued)", "why_tests_cant": "unit tests run a handful of fixed sequences; the tree shape must survive every interleaving of push, back, forward and jump", "anchors": ["crates/gosub_engine/src/engine/tab/history.rs: History::push, go_back, go_forward, go_to, entry"]}
{"id": "C02", "title": "Back returns to the page a navigation came from, and forward retraces it", "statement": "From any reachable history, committing a navigation and then going back returns to the entry that was current before (the nearest navigable ancestor), and a plain forward then returns to the new entry.", "quantifier": "all reachable histories and all pushed URLs/titles", "why_tests_cant": "the law must hold in every reachable tree, including forked ones", "anchors": ["crates/gosub_engine/src/engine/tab/history.rs: History::push, go_back, go_forward"]}
{"id": "C03", "title": "Forward targets are exactly the navigable children, preferred first", "statement": "The forward list of a history contains every navigable child of the current entry exactly once and nothing else; its first element is the most recently chosen or created child whenever that one is navigable, and a plain forward moves there; forward to an id outside the list is refused and changes nothing.", "quantifier": "all reachable histories, all requested ids", "why_tests_cant": "needs all trees, all preferred-child settings and all ids", "anchors": ["crates/gosub_engine/src/engine/tab/history.rs: History::forward_targets, go_forward, can_go_forward"]}
{"id": "C04", "title": "Per-entry title, URL and scroll are isolated", "statement": "Setting the title, scroll offset or URL of the current entry changes that field of that entry only; moving through the history and pushing new entries changes no existing entry's URL, title or scroll; an entry's scroll offset is the one last set while it was current, (0,0) if none.", "quantifier": "all operation sequences and all entries", "why_tests_cant": "isolation is a frame property over every history", "anchors": ["crates/gosub_engine/src/engine/tab/history.rs: History::set_current_title, set_current_scroll, replace_current_url"]}
{"id": "C05", "title": "Going back and then plain forward retraces the same entries", "statement": "In any reachable history, k times back followed by k times plain forward ends on the starting entry.", "quantifier": "all reachable histories and all k", "why_tests_cant": "unbounded depth; the interesting cases need a jump followed by several backs", "anchors": ["crates/gosub_engine/src/engine/tab/history.rs: History::go_back, go_forward, go_to"]}
{"id": "C06", "title": "History snapshot is faithful", "statement": "The snapshot sent to embedders lists every entry at the index equal to its id with the entry's URL, title and parent, the current entry, the forward list, and its can-go-back flag is true exactly when go_back would move.", "quantifier": "all reachable histories", "why_tests_cant": "must agree with the operations in every state", "anchors": ["crates/gosub_engine/src/engine/tab/history.rs: History::snapshot, can_go_back, can_go_forward"]}
{"id": "C07", "title": "Incremental UTF-8 decoding equals whole decoding", "statement": "Feeding a UTF-8 stream in arbitrary chunks and then closing it yields the same characters, the same byte offset for every character and the same line table as decoding the concatenated bytes at once, including malformed and truncated sequences.", "quantifier": "all byte strings and all ways of cutting them into chunks", "why_tests_cant": "the number of cuts is exponential and malformed input interacts with every cut position", "anchors": ["crates/gosub_shared/src/byte_stream.rs: ByteStream::append_str, close, decode_from, extend_line_starts"]}
{"id": "C08", "title": "Source locations are a function of position", "statement": "The line and column reported for a position are determined by the text before it only: the line is one more than the number of line terminators entirely before the position and the column counts from the last one, whatever locations were asked for earlier and however the text arrived.", "quantifier": "all texts, CR/LF configurations, positions and histories of location queries", "why_tests_cant": "the implementation keeps a lookup hint between calls, so the result could depend on the call history", "anchors": ["crates/gosub_shared/src/byte_stream.rs: ByteStream::location, extend_line_starts"]}
{"id": "C09", "title": "Un-reading is the inverse of reading", "statement": "After reading one character from a position that is not inside a CR LF pair, stepping back once restores the position; reading at the end of input does not move; mark/reset and slices never move the position.", "quantifier": "all texts, configurations and positions", "why_tests_cant": "depends on every arrangement of CR and LF around the position", "anchors": ["crates/gosub_shared/src/byte_stream.rs: ByteStream::read_and_next, prev_n, get_slice, mark, reset_to_mark"]}
{"id": "C10", "title": "Byte seek and tell agree", "statement": "Character byte offsets are strictly increasing and inside the buffer; seeking to the byte offset reported for a position returns to that position; switching to another encoding and asking for the byte offset never reports an offset outside the buffer.", "quantifier": "all byte strings, encodings, positions", "why_tests_cant": "needs every malformed byte pattern", "anchors": ["crates/gosub_shared/src/byte_stream.rs: ByteStream::seek_bytes, tell_bytes, set_encoding"]}
{"id": "C11", "title": "Incremental UTF-16 decoding equals whole decoding", "statement": "Feeding a UTF-16 stream in arbitrary chunks and closing it yields the same characters as decoding the concatenated bytes at once.", "quantifier": "all byte strings, both byte orders, all chunkings", "why_tests_cant": "the failing cut positions are inside surrogate pairs only", "anchors": ["crates/gosub_shared/src/byte_stream.rs: ByteStream::append_str, decode_from, decode_utf16_char"]}
{"id": "C12", "title": "Exactly the eligible cookies are sent", "statement": "The Cookie header of a request contains exactly the stored cookies that are unexpired, match the request host (host-only cookies only their own host), match the path, are allowed by Secure, SameSite and the third-party policy - no more and no fewer.", "quantifier": "all jars, request URLs, times, first-party contexts and policies", "why_tests_cant": "the product of domain, path, scheme, SameSite and expiry cases is unbounded", "anchors": ["crates/gosub_engine/src/engine/cookies/cookie_jar.rs: DefaultCookieJar::get_request_cookies"]}
{"id": "C13", "title": "Cookie header order", "statement": "In a Cookie header longer paths come before shorter ones and, among equal path lengths, older cookies come first.", "quantifier": "all jars and requests", "why_tests_cant": "must hold for any number of cookies and any insertion order", "anchors": ["crates/gosub_engine/src/engine/cookies/cookie_jar.rs: DefaultCookieJar::get_request_cookies"]}
{"id": "C14", "title": "One cookie per name, domain and path", "statement": "After any sequence of responses, removals and purges, an origin never holds two cookies with the same name, domain and path; storing a cookie again replaces the value and keeps the original creation time.", "quantifier": "all sequences of jar operations", "why_tests_cant": "an invariant over unbounded histories", "anchors": ["crates/gosub_engine/src/engine/cookies/cookie_jar.rs: DefaultCookieJar::store_response_cookies, remove_cookie, purge_expired"]}
{"id": "C15", "title": "Secure cookies never touch plaintext", "statement": "A cookie marked Secure is never accepted from and never sent to a non-HTTPS URL, after any history.", "quantifier": "all operation histories and all requests", "why_tests_cant": "security property over all histories", "anchors": ["crates/gosub_engine/src/engine/cookies/cookie_jar.rs: DefaultCookieJar::store_response_cookies, get_request_cookies"]}
{"id": "C16", "title": "Cookie name prefixes are honoured", "statement": "Every stored cookie whose name starts with __Secure- is Secure and came from HTTPS; every stored cookie whose name starts with __Host- is also host-only with path /.", "quantifier": "all histories and Set-Cookie headers", "why_tests_cant": "invariant over all histories", "anchors": ["crates/gosub_engine/src/engine/cookies/cookie_jar.rs: DefaultCookieJar::store_response_cookies"]}
{"id": "C17", "title": "Third-party policy and SameSite are enforced", "statement": "With third-party cookies blocked no cookie is stored from or sent on a cross-site request; with the SameSite=None-only policy only SameSite=None cookies are; a Strict cookie is never sent on a cross-site request and a Lax one only on a top-level navigation.", "quantifier": "all jars, requests, policies, contexts, and any same-site oracle", "why_tests_cant": "all combinations of policy, attribute and context", "anchors": ["crates/gosub_engine/src/engine/cookies/cookie_jar.rs: get_request_cookies, store_response_cookies, ThirdPartyCookiePolicy, SameSiteContext"]}
{"id": "C18", "title": "Purging expired cookies is unobservable", "statement": "Purging expired cookies at any time never changes any Cookie header produced at that time or later, removes nothing that is unexpired, and a response with a past expiry or non-positive Max-Age deletes exactly the cookie with the same name, domain and path.", "quantifier": "all jars and all times", "why_tests_cant": "must hold for every later request", "anchors": ["crates/gosub_engine/src/engine/cookies/cookie_jar.rs: purge_expired, store_response_cookies, get_request_cookies"]}
{"id": "C19", "title": "Cookie persistence is crash-safe", "statement": "Saving cookies through the JSON store replaces the file atomically: a crash at any point of a save leaves either the complete old or the complete new contents, and reopening yields the corresponding jars.", "quantifier": "all store contents and all crash points", "why_tests_cant": "crash points cannot be enumerated by tests of the finished call", "anchors": ["crates/gosub_engine/src/engine/cookies/store/json.rs: save_file", "crates/gosub_engine/src/engine/cookies/persistent_cookie_jar.rs"]}
{"id": "C20", "title": "Cookie zones are isolated and share one live jar per zone", "statement": "All handles obtained for a zone are the same jar until it is released; writing through one zone's handle never changes what another zone sees; removing a zone forgets exactly that zone; concurrent persists of different zones keep both updates.", "quantifier": "all interleavings of store operations over all zones", "why_tests_cant": "needs all interleavings", "anchors": ["crates/gosub_engine/src/engine/cookies/store/json.rs", "crates/gosub_engine/src/engine/cookies/store/in_memory.rs", "crates/gosub_engine/src/engine/cookies/store/sqlite.rs", "crates/gosub_engine/src/engine/cookies/persistent_cookie_jar.rs"]}
{"id": "C21", "title": "Web storage areas behave as independent maps", "statement": "Reading a storage key returns the value most recently written to it in the same (zone, partition, origin) area - and the same tab for session storage - and nothing written through another area, tab, zone, partition or origin is visible.", "quantifier": "all sequences of operations over all areas", "why_tests_cant": "isolation is a property over all pairs of areas and histories", "anchors": ["crates/gosub_engine/src/engine/storage/service.rs", "crates/gosub_engine/src/engine/storage/session/in_memory.rs", "crates/gosub_engine/src/engine/storage/local/in_memory.rs", "crates/gosub_engine/src/engine/storage/area.rs"]}
{"id": "C22", "title": "Closing a tab removes exactly its session storage", "statement": "Dropping a tab's session storage empties that tab's areas, leaves every other tab, zone and all local storage untouched, and handles kept from before the drop cannot make data visible again.", "quantifier": "all histories and all handles", "why_tests_cant": "stale handles can be used at any later point", "anchors": ["crates/gosub_engine/src/engine/storage/service.rs", "crates/gosub_engine/src/engine/storage/session/in_memory.rs"]}
{"id": "C23", "title": "Places: visits, bookmarks and queries", "statement": "After any sequence of visits, bookmark changes and clears, the visit count of a URL is the number of visits recorded since it was last cleared, there is at most one bookmark per URL, and a query returns exactly the matching records with their visit count, latest visit time and latest non-empty title, most visited first and most recent first among equals, up to the limit; bookmarks are listed oldest first.", "quantifier": "all operation sequences and all queries", "why_tests_cant": "history-dependent and unbounded", "anchors": ["crates/gosub_engine/src/engine/places.rs: MemoryPlaces"]}
{"id": "C24", "title": "Places search treats the search text literally", "statement": "The SQL LIKE pattern built from a search text matches a string exactly when the string contains the text as a literal (case-folded) substring: wildcard and escape characters in the text have no special meaning.", "quantifier": "all search texts and all strings", "why_tests_cant": "all placements of %, _ and the escape character", "anchors": ["crates/gosub_engine/src/engine/places.rs: SqlitePlaces like_pattern"]}
{"id": "C25", "title": "Settings survive their text form", "statement": "Printing a setting and parsing it back yields the same setting for every boolean, integer, string and every map whose elements survive the list syntax; parsing never panics.", "quantifier": "all settings values", "why_tests_cant": "unbounded strings and integers", "anchors": ["crates/gosub_config/src/settings.rs: Setting Display, FromStr"]}
{"id": "C26", "title": "Settings obey their type and constraint", "statement": "A successful set makes get return exactly that value and the value satisfies the declared type and constraint; a rejected set changes nothing; remove restores the default; unknown keys are refused.", "quantifier": "all schemas, histories of set/remove/get, all values", "why_tests_cant": "must hold after any history", "anchors": ["crates/gosub_config/src/lib.rs: Config::set, get, remove, has", "crates/gosub_config/src/settings.rs: Constraint::allows"]}
{"id": "C27", "title": "Settings change notifications are exact", "statement": "Each successful change of a key notifies every live matching subscription exactly once with the key, no other subscription, and an unchanged or failed set notifies nobody; after unsubscribing a callback is never called again.", "quantifier": "all histories of subscribe, unsubscribe, set, remove", "why_tests_cant": "needs all histories and patterns", "anchors": ["crates/gosub_config/src/lib.rs: subscribe, unsubscribe, set, remove, matching_callbacks"]}
{"id": "C28", "title": "Merging a settings namespace is additive", "statement": "Merging another configuration under a namespace adds exactly its keys prefixed with the namespace, leaves existing keys and values untouched and reports the number of keys added.", "quantifier": "all configurations and namespaces", "why_tests_cant": "all overlaps of key sets", "anchors": ["crates/gosub_config/src/lib.rs: merge, absorb"]}
{"id": "C29", "title": "The document tree stays acyclic", "statement": "Whatever attach, detach, relocate and remove calls are made, with any ids, following child links from a node never returns to that node, so traversals terminate.", "quantifier": "all sequences of document operations with arbitrary ids", "why_tests_cant": "cycles need specific sequences of attaches", "anchors": ["crates/gosub_html5/src/document/document_impl.rs: attach_node, detach_node, relocate_node, has_node_id_recursive"]}
{"id": "C30", "title": "Parent and child links agree", "statement": "When nodes are attached only while detached (or through relocate), a node is listed exactly once, in its parent's child list and nowhere else; attaching at a position puts it there and keeps the order of the others; detaching removes it and nothing else.", "quantifier": "all such operation sequences", "why_tests_cant": "an invariant over unbounded histories", "anchors": ["crates/gosub_html5/src/document/document_impl.rs: attach_node, detach_node, delete_node_by_id", "crates/gosub_html5/src/node/node_impl.rs"]}
{"id": "C31", "title": "Node identity", "statement": "Node ids are never reused, a removed node is never visible again, and the number of nodes reported equals registrations minus removals.", "quantifier": "all sequences of registrations and removals", "why_tests_cant": "history-dependent", "anchors": ["crates/gosub_html5/src/node/arena.rs: NodeArena"]}
{"id": "C32", "title": "Document traversal and queries are in tree order and complete", "statement": "Traversing the document visits each node reachable from the root exactly once, parents before children and siblings in order; a query returns exactly the matching elements in that order and find-first is the first of find-all.", "quantifier": "all documents and queries", "why_tests_cant": "all tree shapes", "anchors": ["crates/gosub_html5/src/document/document_impl.rs: TreeIterator, walk_document_tree", "crates/gosub_html5/src/document/query.rs", "crates/gosub_html5/src/parser/query.rs"]}
{"id": "C33", "title": "Lookup by id attribute", "statement": "Looking up an element by its id attribute returns an attached element whose current id attribute is the one asked for, and the first one registered wins.", "quantifier": "all histories of attribute and tree changes", "why_tests_cant": "the index is maintained incrementally and can go stale", "anchors": ["crates/gosub_html5/src/document/document_impl.rs: node_by_named_id, set_attribute, remove_attribute, on_document_node_mutation_by_id"]}
{"id": "C34", "title": "Deferred DOM changes equal immediate ones", "statement": "Ids returned for nodes created through the document task queue are the ids the nodes actually get when the queue is flushed, and flushing applies the queued changes in order.", "quantifier": "all task sequences", "why_tests_cant": "prediction must be right for every interleaving of creations and flushes", "anchors": ["crates/gosub_html5/src/document/task_queue.rs"]}
{"id": "C35", "title": "Content sniffing respects nosniff and destination", "statement": "A response's handling depends on its bytes only when the server did not forbid sniffing; a sub-resource whose class does not fit its destination is blocked; an attachment is never rendered.", "quantifier": "all header sets, bodies, destinations and policies", "why_tests_cant": "decision table over unbounded MIME strings and bytes", "anchors": ["crates/gosub_engine/src/net/decision.rs: decide_handling", "crates/gosub_engine/src/net/decision/sniff.rs", "crates/gosub_engine/src/net/decision/types.rs"]}
{"id": "C36", "title": "Sub-resources never become documents", "statement": "Routing a response for a style, script, image or font request never produces a main document, a viewer document or a download offer; error results are never routed as content; only the matching pair of destination and decision produces a loaded resource.", "quantifier": "all destinations, decisions and bodies", "why_tests_cant": "all combinations", "anchors": ["crates/gosub_engine/src/net/router.rs: route_response_for"]}
{"id": "C37", "title": "Text and JSON viewers cannot inject markup", "statement": "The HTML produced for viewing a plain-text or JSON response contains no tag that is not part of the fixed template: every < and > of the response is escaped, and un-escaping gives back the original text.", "quantifier": "all response texts and JSON values", "why_tests_cant": "all strings and nesting depths", "anchors": ["crates/gosub_engine/src/net/router.rs: html_escape, text_document_html, json_document_html"]}
{"id": "C38", "title": "A pending decision is resolved at most once", "statement": "Provided random tokens do not repeat, a decision is delivered to its waiter at most once, only to the waiter holding that token, and it is the first one given; an answered waiter that is still there gets its answer; unknown or already used tokens change nothing.", "quantifier": "all interleavings of registrations, resolutions and drops", "why_tests_cant": "interleavings", "anchors": ["crates/gosub_engine/src/net/decision_hub.rs: DecisionHub"]}
{"id": "C39", "title": "Request reference counting", "statement": "With every increment matched by one later decrement, the reference count of a request group reaches zero exactly when all its requests have finished, and completion clean-up runs in every interleaving of the last decrement with finalisation.", "quantifier": "all interleavings of inc, dec, finalize on any number of references", "why_tests_cant": "schedules", "anchors": ["crates/gosub_engine/src/net/req_ref_tracker.rs: RequestRefTracker"]}
{"id": "C40", "title": "Numeric character references", "statement": "A numeric character reference of any length yields exactly one Unicode scalar value: the referenced one, U+FFFD for zero, surrogates and out-of-range numbers, or the Windows-1252 replacement for C1 controls.", "quantifier": "all digit strings in both bases, of any length", "why_tests_cant": "overflow needs arbitrarily long digit strings", "anchors": ["crates/gosub_html5/src/tokenizer/character_reference.rs: consume_character_reference"]}
{"id": "C41", "title": "Named character references use the longest match", "statement": "A named reference consumes the longest entity name in the table that prefixes the input and yields its replacement; in attributes the legacy exception applies; text that is not a reference is kept verbatim.", "quantifier": "all input texts, any entity table", "why_tests_cant": "all prefixes and tables", "anchors": ["crates/gosub_html5/src/tokenizer/character_reference.rs: find_entity", "crates/gosub_html5/src/tokenizer/replacement_tables.rs"]}
{"id": "C42", "title": "The HTML tokenizer terminates", "statement": "For every input text, initial state and last start tag, pulling tokens from the tokenizer yields an end-of-file token after finitely many steps, each pull returns, and after the end of file every further pull returns end of file again.", "quantifier": "all inputs and start states", "why_tests_cant": "non-termination shows up only for particular character/state sequences", "anchors": ["crates/gosub_html5/src/tokenizer.rs: Tokenizer::next_token, consume_stream"]}
{"id": "C43", "title": "Attribute duplicates: first one wins", "statement": "A start tag token never carries two values for one attribute name, and the value kept is the first one in source order.", "quantifier": "all tag texts", "why_tests_cant": "all attribute lists", "anchors": ["crates/gosub_html5/src/tokenizer.rs: store_and_clear_current_attribute, attr_already_exists"]}
{"id": "C44", "title": "Quirks-mode decision", "statement": "A doctype selects quirks, limited-quirks or no-quirks mode exactly as the HTML standard's table says, compared without case.", "quantifier": "all doctype names, public and system identifiers", "why_tests_cant": "unbounded strings", "anchors": ["crates/gosub_html5/src/parser/quirks.rs: identify_quirks_mode"]}
{"id": "C45", "title": "Tile eviction respects budget and protection", "statement": "Enforcing the tile memory budget never evicts a tile inside the raster window, a viewport-pinned tile or a GPU tile; afterwards the reported resident bytes fit the budget unless nothing evictable is left; no more tiles are evicted than needed in least-recently-used order; every evicted area is remembered so that scrolling to it asks for a re-render.", "quantifier": "all tile sets, caches, budgets, scroll positions and usage histories", "why_tests_cant": "all sizes and LRU histories", "anchors": ["crates/gosub_render_pipeline/src/tile_budget.rs: TileBudget::enforce, needs_rerender, touch_composited"]}
{"id": "C46", "title": "Scrolling stays inside the page", "statement": "After any sequence of wheel deltas and animation ticks the scroll target lies within the bounds given at the last scroll, an instant scroll is applied at once, and an animated scroll, once settled, is exactly at the target.", "quantifier": "all sequences of scrolls, ticks, resets and behaviour changes", "why_tests_cant": "unbounded sequences, arbitrary real deltas", "anchors": ["crates/gosub_engine/src/engine/tab/scroll.rs: ScrollState", "crates/gosub_shared/src/animation.rs"]}
{"id": "C47", "title": "A linear back/forward UI sees a classic history", "statement": "An embedder that only navigates, goes back and goes plain forward observes exactly the classic linear browser history: the same returned entries and the same back/forward availability as a back stack and a forward stack where a new page clears the forward stack.", "quantifier": "all sequences of navigate, back, plain forward and page-data updates", "why_tests_cant": "refinement over unbounded sequences", "anchors": ["crates/gosub_engine/src/engine/tab/history.rs: History (module doc lines 3-8)"]}
{"id": "C48", "title": "Reloading a stream replaces its text", "statement": "Loading new content into a stream (from bytes, a file or a string) leaves exactly the new content: the result does not depend on what the stream held before.", "quantifier": "all streams with any history and all new contents", "why_tests_cant": "depends on the history of the stream", "anchors": ["crates/gosub_shared/src/byte_stream.rs: ByteStream::read_from_bytes, read_from_file, read_from_str"]}
{"id": "C49", "title": "Setting constraints survive their text form", "statement": "Parsing a constraint text, writing the constraint out and parsing it again yields the same constraint; every list of integer ranges, negative bounds included, is read back from its text; parsing never panics.", "quantifier": "all constraint texts, all lists of ranges", "why_tests_cant": "unbounded strings and integers", "anchors": ["crates/gosub_config/src/settings.rs: Constraint::parse, Constraint::tokens, parse_range_token"]}
{"id": "C50", "title": "Settings notifications under concurrency", "statement": "When several threads change settings at the same time, every notification decided on is delivered exactly once, and the last notification a subscriber receives for a key carries the current value.", "quantifier": "all interleavings of critical sections and deliveries", "why_tests_cant": "schedules", "anchors": ["crates/gosub_config/src/lib.rs: Config::set, Config::remove"]}
{"id": "C51", "title": "Settings survive a restart", "statement": "A configuration reopened on the storage of an earlier one returns the same value for every declared key, also when the process died while saving.", "quantifier": "all schemas, histories and crash points", "why_tests_cant": "crash points and unbounded values", "anchors": ["crates/gosub_config/src/lib.rs: Config::with_storage, set_storage", "crates/gosub_config/src/storage/sqlite.rs", "crates/gosub_config/src/storage/json.rs: write_file"]}
{"id": "C52", "title": "Settings search lists exactly the matching keys", "statement": "Searching settings with a wildcard pattern lists exactly the declared keys that match, in order of declaration.", "quantifier": "all schemas, histories and patterns", "why_tests_cant": "unbounded patterns and keys", "anchors": ["crates/gosub_config/src/lib.rs: find"]}
{"id": "C53", "title": "A server can read the Cookie header back", "statement": "After any history, splitting a Cookie header at semicolons and each piece at its first equals sign recovers exactly the names and values of the cookies sent, whatever text servers put into them.", "quantifier": "all histories, requests and header texts", "why_tests_cant": "unbounded header texts", "anchors": ["crates/gosub_engine/src/engine/cookies/cookie_jar.rs: get_request_cookies", "crates/gosub_engine/src/engine/cookies/cookie_jar.rs: store_response_cookies"]}
{"id": "C54", "title": "Removing cookies removes what it says", "statement": "Removing a cookie by URL and name removes exactly the cookies of that origin with that name; after forgetting a URL's cookies no cookie is sent to that URL.", "quantifier": "all jars, URLs and names", "why_tests_cant": "unbounded jars and origins", "anchors": ["crates/gosub_engine/src/engine/cookies/cookie_jar.rs: remove_cookie", "crates/gosub_engine/src/engine/cookies/cookie_jar.rs: remove_cookies_for_url"]}
{"id": "C55", "title": "Cookies stay within their site", "statement": "A cookie is only ever sent to the origin that set it or, with a Domain attribute, to hosts of the same site.", "quantifier": "all histories, requests and public suffix lists", "why_tests_cant": "unbounded hosts and suffix lists", "anchors": ["crates/gosub_engine/src/engine/cookies/cookie_jar.rs: is_valid_cookie_domain", "crates/gosub_engine/src/engine/cookies/cookie_jar.rs: get_request_cookies"]}
{"id": "C56", "title": "A response cannot crash the cookie jar", "statement": "Storing the cookies of a response never panics, whatever the headers contain.", "quantifier": "all header byte strings, clocks and jars", "why_tests_cant": "unbounded header texts; overflow only for extreme numbers", "anchors": ["crates/gosub_engine/src/engine/cookies/cookie_jar.rs: store_response_cookies"]}
{"id": "C57", "title": "Set-Cookie headers mean what they say", "statement": "A well-formed Set-Cookie header that may be accepted stores exactly the cookie it describes - name, value, path (default: the directory of the URL), domain, Secure, HttpOnly, SameSite, expiry (Max-Age before Expires, last attribute wins, names in any letter case) - in the origin of the response and nowhere else; with a non-positive Max-Age it deletes that cookie.", "quantifier": "all well-formed headers, URLs and jars", "why_tests_cant": "unbounded attribute lists and texts", "anchors": ["crates/gosub_engine/src/engine/cookies/cookie_jar.rs: store_response_cookies"]}
{"id": "C58", "title": "Cookies saved in SQLite come back", "statement": "Saving a zone's jar in the SQLite store never violates the table's unique key, and loading the zone later gives the jar as it was saved, less the cookies that expired meanwhile, whatever order rows come back in; other zones' rows are untouched.", "quantifier": "all jars reached by responses, tables, row orders and load times", "why_tests_cant": "unbounded jars and histories", "anchors": ["crates/gosub_engine/src/engine/cookies/store/sqlite.rs: persist_zone_from_snapshot, load_zone"]}
{"id": "C59", "title": "Local storage in SQLite survives restarts", "statement": "With the SQLite local store, a read returns the value most recently written to the key in the same zone, partition and origin, across any number of restarts and crashes between operations.", "quantifier": "all sequences of runs, each any interleaving of calls cut off anywhere", "why_tests_cant": "unbounded histories and crash points", "anchors": ["crates/gosub_engine/src/engine/storage/local/sqlite_store.rs: SqliteLocalArea"]}
{"id": "C60", "title": "Storage events tell what changed", "statement": "Every change to a storage area is announced exactly once on the bus, in order, with the key, the new value and the value the key held before; nothing else is announced.", "quantifier": "all schedules of calls on all areas", "why_tests_cant": "interleavings of threads", "anchors": ["crates/gosub_engine/src/engine/storage/service.rs: NotifyingArea"]}
{"id": "C61", "title": "Hovering marks an element and its ancestors", "statement": "Setting the hovered element returns, and afterwards exactly that element and its chain of parents are hovered.", "quantifier": "all documents reached by any calls, all elements", "why_tests_cant": "unbounded tree shapes", "anchors": ["crates/gosub_html5/src/document/document_impl.rs: set_hovered_nodes"]}
{"id": "C62", "title": "Classes follow the class attribute", "statement": "An element has a class exactly when the word is in its class attribute, and class queries agree.", "quantifier": "all histories of attribute and class calls, all texts", "why_tests_cant": "unbounded texts and histories", "anchors": ["crates/gosub_html5/src/document/document_impl.rs: has_class, set_attribute, remove_attribute, add_class", "crates/gosub_html5/src/node/data/element.rs: add_attribute, remove_attribute"]}
{"id": "C63", "title": "Declared types reach their consumers", "statement": "A style sheet, script, image or font that the server serves under the registered type of its kind is handed to its consumer with exactly the bytes of the body, whatever those bytes are.", "quantifier": "all header sets, bodies and policies", "why_tests_cant": "unbounded MIME strings and bodies", "anchors": ["crates/gosub_engine/src/net/decision.rs: class_from_mime, decide_handling", "crates/gosub_engine/src/net/router.rs: route_response_for"]}
{"id": "C64", "title": "The reference registry is a bijection", "statement": "Engine references and network references translate into each other without loss: translating there and back gives the reference, different references never share a network reference, and a request's target is found until it is forgotten.", "quantifier": "all interleavings of translations, registrations and removals", "why_tests_cant": "interleavings and unbounded histories", "anchors": ["crates/gosub_engine/src/net/req_ref_tracker.rs: RefRegistry"]}
{"id": "C65", "title": "Document buffering does not depend on chunking", "statement": "However a document's bytes are split into reads, the parsed bytes are the first max bytes of the body; after a read error or a cancellation nothing is parsed.", "quantifier": "all splittings of all bodies, all limits", "why_tests_cant": "unbounded sequences of reads", "anchors": ["crates/gosub_engine/src/html/parser.rs: parse_main_document_stream"]}
{"id": "C66", "title": "Documents mean what the standard says", "statement": "For any document made of text, start tags with any attributes in any of the ways to write them, end tags and comments, the tokens are exactly the texts with their references resolved, the tags with folded names and first attribute values, and the comments, in order, followed by the end of the file.", "quantifier": "all documents of this grammar, of any length and with any characters", "why_tests_cant": "unbounded nesting of texts, attribute lists and references", "anchors": ["crates/gosub_html5/src/tokenizer.rs: Tokenizer::consume_stream", "crates/gosub_html5/src/tokenizer.rs: next_token", "crates/gosub_html5/src/tokenizer.rs: store_and_clear_current_attribute"]}
{"id": "C67", "title": "Markup in text elements is text", "statement": "When the tree builder switches the tokenizer after the start tag of a title, style, script or similar element, everything up to that element's own end tag is one text token; references count in title and textarea bodies only.", "quantifier": "all pages of the grammar of C66 with such elements, all bodies, all tree builders that switch after these tags", "why_tests_cant": "bodies can hold any almost-matching end tag", "anchors": ["crates/gosub_html5/src/tokenizer.rs: consume_stream (RCDATA, RAWTEXT, ScriptData states)", "crates/gosub_html5/src/tokenizer.rs: is_appropriate_end_token"]}
{"id": "C68", "title": "Text tokens are whole", "statement": "Whatever the input, a text token is never empty and no two text tokens follow one another, and the end of the file is only given when all input was read.", "quantifier": "all inputs, start states and switches", "why_tests_cant": "all character and state sequences", "anchors": ["crates/gosub_html5/src/tokenizer.rs: next_token", "crates/gosub_html5/src/tokenizer.rs: emit_token"]}
{"id": "C69", "title": "Line ends do not matter", "statement": "A document saved with LF, CR LF or CR line ends gives the tokenizer the same characters, however its bytes are cut into pieces, and whatever the tokenizer reads, takes back, skips or looks ahead at.", "quantifier": "all texts, all splittings into chunks, all sequences of stream operations", "why_tests_cant": "a pair can be cut by a chunk or crossed by an un-read at any place", "anchors": ["crates/gosub_shared/src/byte_stream.rs: read_and_next, prev_n, get_slice", "crates/gosub_html5/src/tokenizer.rs: stream_read_and_next, stream_prev, stream_next_n"]}
{"id": "C70", "title": "Selectors match what CSS says", "statement": "For every document and every node, matching a selector ends with a verdict, and an element matches exactly the selectors that CSS says it matches: simple selectors by name, class, id, attributes and state, compounds when all their parts hold, and combinators by parent, ancestor and sibling relations. A list matches when a member does, and a pseudo-element selector matches that pseudo-element only.", "quantifier": "all documents built through the API, all nodes, all selectors", "why_tests_cant": "trees and selectors are unbounded, and backtracking bugs need particular shapes of both", "anchors": ["crates/gosub_css3/src/matcher/styling.rs: match_selector, match_selector_parts, match_selector_part"]}
{"id": "C71", "title": "Specificity orders selectors as CSS says", "statement": "Comparing two selectors' specificities is a total order that compares ids, then classes, attributes and pseudo-classes, then types; a selector's specificity is the count of its parts of each kind, and a list has the specificity of its most specific matching member.", "quantifier": "all selectors and pairs of specificities", "why_tests_cant": "an order law over all triples", "anchors": ["crates/gosub_css3/src/stylesheet.rs: Specificity", "crates/gosub_css3/src/matcher/styling.rs: match_selector"]}
{"id": "C72", "title": "Hovering shows the pointer's real position", "statement": "Whatever the style sheets and wherever the pointer moves, skipping the restyle of moves no hover rule can see never changes what a selector matches, and after a repaint every element shows the styles for the pointer's position.", "quantifier": "all documents, all style sheets, all pointer paths and interleavings with repaints", "why_tests_cant": "the error, a stale style, depends on the whole path and on the sheet", "anchors": ["crates/gosub_css3/src/system.rs: hover_fingerprints_impl", "crates/gosub_engine/src/engine/context.rs: update_hover, hover_matches, rebuild_pipeline_cache_if_needed, pipeline_hover_repaint"]}
{"id": "C73", "title": "A property takes the values its grammar generates", "statement": "A declaration's values are taken as valid exactly when the grammar of the property (in CSS value definition syntax: keywords, data types, juxtaposition, &&, ||, |, the multipliers * + ? {a,b} # !, functions and references) generates them, or when they are a css-wide keyword, contain var() or env(), or are a vendor-prefixed keyword.", "quantifier": "all grammars, all lists of values, all data types", "why_tests_cant": "grammars nest without bound, and a wrong choice only shows for particular combinations of operators and values", "anchors": ["crates/gosub_css3/src/matcher/syntax_matcher.rs: CssSyntaxTree::matches, match_component, match_component_inner, match_group_*", "crates/gosub_css3/src/matcher/property_definitions.rs: resolve_property_reference"]}
{"id": "C74", "title": "Checking a value ends", "statement": "Checking the values of a declaration against the grammar of its property always ends with a verdict and without a crash, whatever the values.", "quantifier": "all properties of the definitions the engine ships with, all lists of values", "why_tests_cant": "a grammar that repeats something that can match nothing makes the loop endless for particular values only", "anchors": ["crates/gosub_css3/src/matcher/syntax_matcher.rs: match_component, match_component_inner"]}
{"id": "C75", "title": "The winning declaration decides", "statement": "For every document, element and list of style sheets, a property of the element has the value of the declaration that wins the cascade: of the valid declarations of that property, by name or through a shorthand, in rules whose selectors match, the one with the highest origin and importance, then specificity, then the last in order of appearance; and it has no value when there is none.", "quantifier": "all documents, nodes, style sheets, properties, grammars and pseudo-elements", "why_tests_cant": "the winner depends on all declarations of all sheets together", "anchors": ["crates/gosub_css3/src/system.rs: properties_from_node, add_property_to_map", "crates/gosub_css3/src/matcher/styling.rs: DeclarationProperty, CssProperty::compute_value", "crates/gosub_css3/src/matcher/shorthands.rs: FixList"]}
{"id": "C76", "title": "Shorthands set their longhands", "statement": "A valid declaration of a shorthand for the sides of a box (one to four values) or for two ends (one or two values) sets each longhand to the value CSS assigns to it, and nothing else.", "quantifier": "all values the grammar of the shorthand takes, all shorthands of that shape among the definitions the engine ships with", "why_tests_cant": "the bookkeeping counts matches while the grammar is being matched, so errors show only for particular numbers and kinds of values", "anchors": ["crates/gosub_css3/src/matcher/shorthands.rs: ShorthandResolver, FixList, Shorthands", "crates/gosub_css3/src/matcher/syntax_matcher.rs: match_component"]}
{"id": "C77", "title": "Custom properties are inherited", "statement": "The value of a custom property that an element sees is the one the cascade gives it at the nearest of the element and its ancestors where it is declared, and none when it is declared at none of them.", "quantifier": "all documents built through the API, all nodes, style sheets and names", "why_tests_cant": "trees and sheets are unbounded", "anchors": ["crates/gosub_css3/src/system.rs: collect_custom_properties"]}
{"id": "C78", "title": "var() stands for the custom property", "statement": "Where a declaration uses var() with a custom property that has a value for the element, the element is styled exactly as if that value had been written in its place; otherwise as if the fallback had been written.", "quantifier": "all documents, nodes, style sheets, declarations and custom properties", "why_tests_cant": "an equivalence of two whole style computations for all sheets", "anchors": ["crates/gosub_css3/src/system.rs: resolve_functions", "crates/gosub_css3/src/functions/var.rs: resolve_var"]}
{"id": "C79", "title": "Declarations that are not valid are ignored", "statement": "Adding a declaration whose value the grammar of its property does not generate, anywhere in any style sheet, changes the style of no element.", "quantifier": "all documents, nodes, style sheets, positions and values", "why_tests_cant": "the state carried from one declaration to the next makes this a property of whole runs", "anchors": ["crates/gosub_css3/src/system.rs: add_property_to_map", "crates/gosub_css3/src/matcher/shorthands.rs: FixList"]}
{"id": "C80", "title": "Styling an element ends", "statement": "For every document, node and style sheet, computing the style of an element or of its pseudo-elements ends without a crash.", "quantifier": "all documents built through the API, all nodes, all style sheets", "why_tests_cant": "grammars, selectors and shorthands that stand for shorthands are searched by nested loops whose length depends on the input", "anchors": ["crates/gosub_css3/src/system.rs: properties_from_node, pseudo_properties_from_node", "crates/gosub_css3/src/matcher/shorthands.rs: resolve_nested"]}
{"id": "C81", "title": "The latest navigation wins", "statement": "Once no load is awaited any more, the tab shows the outcome of the navigation that was asked for last: its page and address, not loading and without an error; or, if it failed, the error. No older load, however slow, replaces it.", "quantifier": "all sequences of commands, all orders in which loads end and their results are received, all outcomes", "why_tests_cant": "a property of all interleavings of the worker, its load tasks and the user", "anchors": ["crates/gosub_engine/src/engine/tab/worker.rs: TabWorker::run, navigate_to, on_nav_result, cancel_current_nav", "crates/gosub_engine/src/engine/events.rs: TabCommand"]}
{"id": "C82", "title": "Every navigation is reported once", "statement": "The embedder is told of every navigation that it started, and later, at most once, that it finished, failed or was cancelled; never of an unknown navigation. Every navigation that started is reported as over once the tab has settled.", "quantifier": "all sequences of commands and all interleavings with the load tasks", "why_tests_cant": "missing and double reports come from races between results and commands", "anchors": ["crates/gosub_engine/src/engine/tab/worker.rs: TabWorker::run, navigate_to, navigate_same_document, on_nav_result", "crates/gosub_engine/src/engine/events.rs: NavigationEvent"]}
{"id": "C83", "title": "A superseded navigation leaves no trace", "statement": "The page changes only when a load has ended well, and then to that load's page and address, which is reported. A navigation that was superseded or cancelled changes neither page, history, error nor loading indicator.", "quantifier": "all sequences of commands and all interleavings with the load tasks", "why_tests_cant": "a property of races", "anchors": ["crates/gosub_engine/src/engine/tab/worker.rs: on_nav_result, cancel_current_nav, navigate_to"]}
{"id": "C84", "title": "What the embedder is told is what the tab shows", "statement": "At any time the address of the tab is that of the last navigation reported as finished, and its history, with what back and forward would do, is the last one reported.", "quantifier": "all sequences of commands and all interleavings with the load tasks", "why_tests_cant": "an event forgotten on one path shows only in particular histories", "anchors": ["crates/gosub_engine/src/engine/tab/worker.rs: on_nav_result, navigate_same_document, traverse_history, history_changed"]}
{"id": "C85", "title": "Pages are filed in the session history", "statement": "No sequence of events corrupts the session history. When a page arrives, the current entry of the history has its address and title; no other entry changes address, and going to other entries does not create new ones.", "quantifier": "all sequences of commands and all interleavings with the load tasks", "why_tests_cant": "entries are chosen when the load starts and written when it ends, with anything in between", "anchors": ["crates/gosub_engine/src/engine/tab/worker.rs: on_nav_result, traverse_history, navigate_to, HistoryIntent", "crates/gosub_engine/src/engine/tab/history.rs: TabHistory"]}
{"id": "C86", "title": "The loading indicator tells whether the tab loads", "statement": "A tab is marked as loading exactly while the navigation asked for last has not ended.", "quantifier": "all sequences of commands, all outcomes and interleavings", "why_tests_cant": "a flag set and cleared on many paths", "anchors": ["crates/gosub_engine/src/engine/tab/worker.rs: navigate_to, load_html, on_nav_result"]}
{"id": "C87", "title": "Going back returns to where the user was", "statement": "Leaving a page and going back to it puts the user at the offset they had left the page at, whatever they scrolled to in between, as far as the page allows.", "quantifier": "all earlier histories, pages, offsets and activities on the page in between", "why_tests_cant": "the offset is stored and restored at different times, around loads that can be replaced", "anchors": ["crates/gosub_engine/src/engine/tab/worker.rs: save_scroll, navigate_to, on_nav_result, tick_draw, apply_scroll, PendingScroll"]}
{"id": "C88", "title": "The title is the page's own", "statement": "The title of the tab, and the title recorded for a visited page, is the title of the page that is shown.", "quantifier": "all sequences of pages with and without title", "why_tests_cant": "a leftover of one page shows on the next", "anchors": ["crates/gosub_engine/src/engine/tab/worker.rs: on_nav_result", "crates/gosub_engine/src/engine/places: record_visit"]}
{"id": "C89", "title": "Navigating within a page loads nothing", "statement": "A navigation to the address of the page that is shown, up to the fragment, keeps the page, loads nothing, moves to the new address and adds one history entry below the current one; a navigation to another address, or a reload, starts one load and keeps what is shown until it ends.", "quantifier": "all states a tab can get into, all addresses", "why_tests_cant": "the decision depends on the state left by all earlier events", "anchors": ["crates/gosub_engine/src/engine/tab/worker.rs: is_same_document, navigate_same_document, navigate_to"]}
{"id": "C90", "title": "Value grammars are read as they are written", "statement": "When the engine reads a value grammar written in the notation of the CSS specifications, it gets exactly that grammar: keywords, quoted signs, types with their ranges, functions, juxtaposition binding stronger than &&, that stronger than ||, that stronger than |, brackets, and the multipliers * + ? ! {a} {a,b} # #{a} #{a,} #{a,b} in the order written.", "quantifier": "all grammars of any depth and width, with any of the components, combinators and multipliers, and all 1283 shipped texts", "why_tests_cant": "Tests read a few grammars; that precedences, brackets and multipliers never interfere is a claim about every nesting of them.", "anchors": ["crates/gosub_css3/src/matcher/syntax.rs: CssSyntax::compile, parse_component, parse_multipliers, parse_component_singlebar_list"]}
{"id": "C91", "title": "Table cells stand where HTML puts them", "statement": "In every section of a table, each cell is placed in the first free slot of its row, reserves as many columns and rows as its colspan and rowspan say (a colspan of at most 1000, a rowspan of 0 to the end of the section, none beyond it), the section has as many columns as its widest row needs, and a column is reported as spanned below a row exactly if one cell covers both rows there.", "quantifier": "all sections with any number of rows and cells and all spans", "why_tests_cant": "slots are kept in a running count per column that every cell changes; a wrong count shows only for particular combinations of spans", "anchors": ["crates/gosub_lattice/src/grid.rs: build_section_grid, GridMap::cols_spanned_at_boundary", "crates/gosub_lattice/src/model.rs: build_source_cell"]}
{"id": "C92", "title": "No two table cells share a slot", "statement": "No slot of a table's grid belongs to two cells, every cell lies inside the grid, and belongs to the row it was written in.", "quantifier": "all sections with any number of rows and cells and all spans", "why_tests_cant": "overlaps come from the interplay of a tall cell with wide cells in later rows", "anchors": ["crates/gosub_lattice/src/grid.rs: build_section_grid"]}
{"id": "C93", "title": "A table has the cells of its document", "statement": "The header, body and footer of a table contain exactly the cells of the document, once and in document order, each with the spans of its attributes, in the row and group it was written in; cells or rows without a row or group of their own share one with their neighbours.", "quantifier": "all documents and all tables", "why_tests_cant": "markup may nest rows, cells, captions and other content in any order", "anchors": ["crates/gosub_lattice/src/model.rs: TableModel::build, build_row_group, build_row, with_anonymous_group, anonymous_row"]}
{"id": "C94", "title": "Table cells fill their slots on the page", "statement": "Each cell of a table gets a box that begins at the line of its first column and row and ends one gutter before the line after its last one, sections follow each other from top to bottom, no two boxes overlap, and all are inside the table.", "quantifier": "all documents with a table, all styles, contents and available widths", "why_tests_cant": "positions are computed relative to row and group and added up along the tree; gutters are counted in five places", "anchors": ["crates/gosub_lattice/src/compute.rs: compute_table_layout, place_section, place_cell", "crates/gosub_render_pipeline/src/layouter/table.rs: apply_recursive"]}
{"id": "C95", "title": "Columns and rows have the sizes they need", "statement": "A width given to a column is kept, the columns and gutters together fill the table exactly if what they need fits, no width is negative, and each row is as tall as its cells need and not taller.", "quantifier": "all tables, styles and contents", "why_tests_cant": "widths are distributed by several rules depending on which columns have widths or content", "anchors": ["crates/gosub_lattice/src/sizing/columns.rs: compute_column_widths", "crates/gosub_lattice/src/sizing/rows.rs: compute_row_heights"]}
{"id": "C96", "title": "Laying out a table returns", "statement": "Laying out a table ends without a crash, whatever its structure and attributes.", "quantifier": "all documents, attributes and styles", "why_tests_cant": "indices into columns and rows are computed, and vectors grow with attribute values", "anchors": ["crates/gosub_lattice/src/compute.rs: compute_table_layout", "crates/gosub_lattice/src/grid.rs: build_section_grid, grow_slots"]}
{"id": "C97", "title": "Reading a style sheet ends", "statement": "Splitting any text into CSS tokens ends without a crash, with at most one token for each character followed by the end, which comes once.", "quantifier": "all texts", "why_tests_cant": "escapes, strings, urls and comments may be cut off or malformed at any place", "anchors": ["crates/gosub_css3/src/tokenizer.rs: Tokenizer::consume_token, consume_string_token, consume_url, consume_ident, consume_comment"]}
{"id": "C98", "title": "CSS is read as it is written", "statement": "A text made of CSS names, strings, numbers, dimensions, percentages, hashes, at-keywords, functions, urls, unicode ranges, punctuation, white space and comments is read as exactly these tokens, with escapes replaced, comments dropped and a leading byte order mark ignored; and every name and every string can be written.", "quantifier": "all sequences of pieces, all spellings of each piece with escapes, all following texts that keep the pieces apart", "why_tests_cant": "each piece's end depends on up to three characters of what follows, and names, strings and urls have unboundedly many spellings", "anchors": ["crates/gosub_css3/src/tokenizer.rs: Tokenizer::consume_token and the functions it calls"]}
{"id": "C99", "title": "Looking ahead in a style sheet changes nothing", "statement": "Whatever the parser consumes, looks ahead at or goes back over, each answer is the token of one fixed list at the position given by the tokens consumed minus those put back; no call crashes.", "quantifier": "all texts and all sequences of calls", "why_tests_cant": "tokens are produced on demand and cached; any interleaving of calls decides when", "anchors": ["crates/gosub_css3/src/tokenizer.rs: Tokenizer::consume, lookahead, reconsume"]}
{"id": "C100", "title": "Parsing a style sheet ends", "statement": "Parsing any text as a style sheet ends without a crash, with rules or with an error, both when errors are ignored and when they are not; and the parser's bookkeeping of the tokenizer's position, look-ahead and end is exact.", "quantifier": "all texts, all number formats and colours, both error modes, all sequences of tokenizer calls", "why_tests_cant": "the parser has some thirty loops that each look ahead, put tokens back and recover from errors, and progress depends on what the recovery puts back", "anchors": ["crates/gosub_css3/src/lib.rs: Css3::parse_str", "crates/gosub_css3/src/parser/*.rs", "crates/gosub_css3/src/parser.rs"]}
{"id": "C101", "title": "Parsing a style sheet does not exhaust the stack", "statement": "How deep the parser's calls nest is bounded, whatever the text.", "quantifier": "all texts", "why_tests_cant": "the texts that nest deepest are long and unnatural", "anchors": ["crates/gosub_css3/src/parser/condition.rs: parse_condition", "crates/gosub_css3/src/parser.rs: recurse"]}
{"id": "C102", "title": "A style sheet is read as it is written", "statement": "A sheet of rules, each with a list of selectors and a block of declarations with values, is read as exactly these rules, selectors, declarations, values and importance, in order.", "quantifier": "all well-formed sheets: all selectors, combinators, attribute conditions, values, nested functions, and all optional white space", "why_tests_cant": "the grammar is recursive, and every construct may be followed by every other with or without white space", "anchors": ["crates/gosub_css3/src/parser/{selector,selector_list,rule,block,declaration,value,function}.rs", "crates/gosub_css3/src/ast.rs: collect_rule"]}
{"id": "C103", "title": "An invalid declaration costs only itself", "statement": "In a sheet that is read with errors ignored, a declaration that is not valid has no effect on the declarations and rules around it.", "quantifier": "all sheets and all invalid declarations at all places", "why_tests_cant": "recovery must find the end of something that has no grammar", "anchors": ["crates/gosub_css3/src/parser/declaration.rs: parse_declaration, parse_until_declaration_end", "crates/gosub_css3/src/parser/block.rs"]}
{"id": "C104", "title": "An invalid rule costs only itself", "statement": "In a sheet that is read with errors ignored, a rule whose selector is not valid is dropped with its whole block and has no effect on the rules around it.", "quantifier": "all sheets and all invalid rules at all places, with any balanced blocks", "why_tests_cant": "recovery must find the matching brace of a block of any depth", "anchors": ["crates/gosub_css3/src/parser/rule.rs: parse_rule", "crates/gosub_css3/src/parser/block.rs: parse_until_rule_end", "crates/gosub_css3/src/ast.rs: collect_rule"]}
{"id": "C105", "title": "A property is checked against the grammar written for it", "statement": "After the value definitions are loaded, the grammar of each property is the last one written for it, with every reference replaced by what it refers to: a type by its definition (one written in angle brackets before a bare one) with a range on the reference passed to the data types without one, a quoted name by the property's grammar, a basic data type by itself. Only references to types that refer to themselves are left.", "quantifier": "all files of types and properties that load, all properties and all chains of references", "why_tests_cant": "references nest and are cached in an order that depends on the whole file; a wrong grammar shows only for the values it wrongly takes", "anchors": ["crates/gosub_css3/src/matcher/property_definitions.rs: parse_definition_files, parse_syntax_file, CssDefinitions::resolve, resolve_component, apply_range"]}
{"id": "C106", "title": "Every style that layout and painting ask for is the one the way to the root gives", "statement": "Asking for a computed style always ends. The answer is what the node says (its style attribute, then currentColor, the sheets, presentation attributes), else the value of the nearest ancestor for inherited properties, else the initial value. Lengths in em are multiples of the node's font size (for font-size, of the parent's) and no em or rem is left; a side without a border style has width 0; currentColor is the node's computed color. Only the node and its ancestors count.", "quantifier": "all documents without cycles, all nodes, all properties and values", "why_tests_cant": "font sizes in em multiply along chains of any length, and properties ask for one another", "anchors": ["crates/gosub_render_pipeline/src/common/document/pipeline_doc.rs: get_style, style_from_map, get_own_style, border_width_style_peer", "crates/gosub_render_pipeline/src/common/style.rs: StyleProperty"]}
{"id": "C107", "title": "Generated boxes and the document make one tree", "statement": "The boxes before and after the content of elements, and their texts, have ids different from one another and from all nodes of the document. A node is among the children of another exactly if that one is its parent, and only once. The box before comes first, the one after last, and the children of the document keep their order in between.", "quantifier": "all documents with ids below 2^60 and all choices of generated boxes", "why_tests_cant": "ids are packed into the bits of a machine word; a clash shows only for particular ids", "anchors": ["crates/gosub_render_pipeline/src/common/document/pipeline_doc.rs: encode_pseudo, decode_pseudo, is_pseudo, children, parent_node_id"]}
{"id": "C108", "title": "Cached styles do not show", "statement": "Whatever is asked, changed and invalidated before, the own style of a node is as if it were computed anew from its style attribute and the sheets, also when several threads ask at once.", "quantifier": "all histories of questions, invalidations and changes; all schedules of threads that ask", "why_tests_cant": "the caches are filled and emptied in an order that depends on the whole history", "anchors": ["crates/gosub_render_pipeline/src/common/document/pipeline_doc.rs: style_cache, inline_style_cache, get_own_style, invalidate_style_for_nodes, clear_style_cache", "crates/gosub_engine/src/engine/context.rs: hover_dirty_nodes"]}
{"id": "C109", "title": "Exactly the visible part of the document is rendered", "statement": "Building the render tree ends. It has exactly the nodes that are visible themselves and below visible nodes only, each with its visible children in document order; without a visible root it is empty.", "quantifier": "all documents and all choices of visible nodes", "why_tests_cant": "trees have any shape and depth; the build works with two explicit stacks whose contents depend on all nodes before", "anchors": ["crates/gosub_render_pipeline/src/rendertree_builder/tree.rs: RenderTree::parse, build_node"]}
{"id": "C110", "title": "Elements are painted once, in the right order, and move and fade as they say", "statement": "Every element of the layout is in exactly one layer. A layer has its elements in document order; layers are sorted by z-index, those with the same one by their first element in the document. An element that fades, is fixed or is sticky begins a layer with its opacity and its way of scrolling; one with a z-index begins a layer of that level; any other stays with its parent.", "quantifier": "all layout trees with all opacities, positions, z-indices and images", "why_tests_cant": "the layer of an element depends on all its ancestors and on what was promoted before it", "anchors": ["crates/gosub_render_pipeline/src/layering/layer.rs: LayerList::new, generate_layers, traverse, add_to_layer, sticky_constraint"]}
{"id": "C111", "title": "A click goes to the element on top", "statement": "The element found at a point of the screen is the one painted last of those whose box, where it is shown with the present scroll offset, covers the point; none is found only if none covers it.", "quantifier": "all layers, all points, all scroll offsets, all fixed and sticky layers", "why_tests_cant": "hit tests undo for each layer what painting does to it; points, offsets and constraints range over numbers", "anchors": ["crates/gosub_render_pipeline/src/layering/layer.rs: LayerList::find_element_at", "crates/gosub_interface/src/render/backend.rs: anchored_tile_pos, StickyConstraint::offset"]}
{"id": "C112", "title": "Tiles show each point of the page exactly once", "statement": "Every point of the page is in exactly one tile of the first layer, and every point of an element on the page in exactly one tile of its layer. That tile has a piece of the element at this point; a piece is exactly what tile and element have in common, with the same place in both; and in a tile elements are painted in the order of the layer.", "quantifier": "all page and tile sizes, all layers and all boxes, all points", "why_tests_cant": "rounding at the edges of tiles and elements decides whether there are gaps or overlaps", "anchors": ["crates/gosub_render_pipeline/src/tiler.rs: TileList::generate, get_tiles_for_element"]}
{"id": "C113", "title": "A sticky element stays in its parent and at its inset", "statement": "A sticky element is where layout has it until that is past its inset; then it rests at the inset until the end of its parent's content box carries it away. It never leaves that box, never moves against the scrolling, and never runs ahead of it.", "quantifier": "all insets, boxes and scroll offsets", "why_tests_cant": "offsets and boxes range over numbers, and the regimes meet at boundaries", "anchors": ["crates/gosub_interface/src/render/backend.rs: StickyConstraint::offset, anchored_tile_pos"]}
{"id": "C114", "title": "Blending and fading pixels is exact in every channel", "statement": "Putting a premultiplied pixel over another gives in each channel the source plus the destination times one minus the source's alpha, rounded to the nearest value; fading multiplies each channel by the opacity and rounds. No channel spills into another and nothing overflows; results stay premultiplied, an opaque background stays opaque, an opaque source replaces and a transparent one changes nothing; both byte orders are read right.", "quantifier": "all pairs of pixels and all opacities", "why_tests_cant": "two channels at a time are computed in one machine word; there are 2^64 pairs of pixels", "anchors": ["crates/gosub_interface/src/render/backend.rs: blend_over_argb_u32, scale_premul_argb_u32, mul_div255_pair, PixelFormat::pixel_to_argb_u32", "crates/gosub_render_pipeline/src/render/tile_composite.rs: argb_u32_to_rgba8"]}
{"id": "C115", "title": "A frame is the tiles over the background, each at its place", "statement": "Compositing never indexes out of range. Each pixel of the target region becomes the background with all tiles that cover it put over it in order, faded by their opacity; everything outside the region is left alone; tiles that are side by side on the page are side by side on the screen.", "quantifier": "all lists of tiles of all sizes, all positions on and off the screen, all scroll offsets, scales, anchors, and target regions in a buffer", "why_tests_cant": "clipping on four sides interacts with strides and offsets; positions are fractions", "anchors": ["crates/gosub_render_pipeline/src/render/tile_composite.rs: composite_tiles", "crates/gosub_interface/src/render/backend.rs: anchored_tile_pos"]}
{"id": "C116", "title": "What an image source is answered stays, and is that image", "statement": "A source that a request answered with an id is answered with that id ever after. The id shows a picture that loading this source gave, and goes on doing so, or it is the placeholder and a load of the source failed. Two sources never share an id other than the placeholder.", "quantifier": "all schedules of any number of requests, loads, inline drawings and background threads, all answers of the network", "why_tests_cant": "cache, entries and ids are under separate locks, so that threads interleave between any two accesses", "anchors": ["crates/gosub_render_pipeline/src/common/media/media_store.rs: MediaStore::request_media, load_media, load_media_from_data"]}
{"id": "C117", "title": "A page is laid out again when an image it waits for is there", "statement": "Each answer 'pending' is followed by the end of a load of that source, and after it the engine is told to lay out again at the latest when it asks next; the source is then ready. A source is loaded by one background thread at a time, and, if it is only requested, only once, also when the load fails.", "quantifier": "all schedules of any number of requests, loads and polls, all answers of the network", "why_tests_cant": "a lost wake-up or a double load needs a particular interleaving of several threads", "anchors": ["crates/gosub_render_pipeline/src/common/media/media_store.rs: MediaStore::request_media, load_media, load_media_from_data, take_completed"]}
{"id": "C118", "title": "A gradient runs evenly from stop to stop", "statement": "Before its first and after its last stop a gradient has their colours; between two neighbouring stops each component changes evenly from one to the other; no component ever leaves the range of the stops. For each direction the points of a box are on the gradient line, whose ends are at two opposite corners.", "quantifier": "all lists of stops, all points of the line, all directions and sizes of boxes", "why_tests_cant": "offsets, colours, directions and sizes range over numbers", "anchors": ["crates/gosub_render_pipeline/src/painter/commands/gradient.rs: LinearGradient::color_at, line, rasterize_tile"]}
{"id": "C119", "title": "The console counts, measures and nests", "statement": "A counter shows how often it was counted since it was last reset; a timer shows the time since it was started, until it ends; the end of a group ends the group that was opened last and is still open. No call fails.", "quantifier": "all histories of calls with all labels, all times of the clock", "why_tests_cant": "the state is that of a whole history of calls with any labels in any order", "anchors": ["crates/gosub_jsapi/src/console.rs: Console::count, count_reset, time, time_log, time_end, group, group_end"]}
