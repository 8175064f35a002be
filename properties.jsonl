{"id": "C01", "title": "UTF-8 validation is exact", "statement": "bc_utf8_validate returns true on a byte string if and only if that string is a concatenation of RFC 3629 encodings of Unicode scalar values (no overlong forms, no surrogates, nothing above U+10FFFF, no truncated sequence).", "quantifier": "every byte string of every length", "why_tests_cant": "There are 256^n byte strings of length n; tests sample a handful of sequences and cannot show that no malformed string is accepted.", "anchors": ["src/common/utf8.c: bc_utf8_validate, bc_utf8_validate_str, utf8d"]}
{"id": "C02", "title": "Reading a file does not depend on chunk boundaries", "statement": "bc_file_get_contents/bc_stdin_read return exactly the bytes of the file, minus a leading UTF-8 byte order mark and only that one, however the reads are split into chunks; with utf8=true a file whose bytes are not valid UTF-8 is rejected and a valid one is not.", "quantifier": "every file content, every sequence of read sizes", "why_tests_cant": "The way fread splits a file is chosen by the runtime; boundaries falling inside the BOM or inside a multi-byte sequence cannot be enumerated.", "anchors": ["src/common/file.c: bc_file_get_contents", "src/common/stdin.c: bc_stdin_read", "src/common/utf8.c: bc_utf8_skip_bom"]}
{"id": "C03", "title": "The trie behaves as a map from strings to values", "statement": "After any sequence of bc_trie_insert calls, bc_trie_lookup of a key returns the value of the last insertion of exactly that key, and nothing if there was none; an insertion never changes what any other key maps to (prefixes and extensions included).", "quantifier": "every finite history of insertions and every key", "why_tests_cant": "All histories of insertions over all keys, including keys that are prefixes of each other and the empty key, are unbounded.", "anchors": ["src/common/utils.c: bc_trie_new, bc_trie_insert, bc_trie_lookup"]}
{"id": "C04", "title": "Trie size and iteration enumerate exactly the live keys", "statement": "After any sequence of insertions bc_trie_size is the number of distinct inserted keys, and bc_trie_foreach calls the callback exactly once per distinct key, with that key and the value lookup would return.", "quantifier": "every finite history of insertions", "why_tests_cant": "Requires reasoning about every shape the trie can take.", "anchors": ["src/common/utils.c: bc_trie_size, bc_trie_foreach, bc_trie_foreach_node"]}
{"id": "C05", "title": "Inserting into a trie frees each replaced value exactly once", "statement": "With a free function set, over any history of insertions followed by bc_trie_free, the free function is called exactly once on every stored value: replaced values at replacement time, live values at free time.", "quantifier": "every finite history of insertions", "why_tests_cant": "Leaks and double frees depend on the whole history; a test only sees one.", "anchors": ["src/common/utils.c: bc_trie_insert, bc_trie_free, bc_trie_free_node"]}
{"id": "C06", "title": "String builder holds the concatenation and never overflows", "statement": "After any sequence of bc_string_append_len/append/append_c/append_printf-style operations the buffer holds the concatenation of the appended bytes followed by NUL, the recorded length is the number of bytes, and every write stayed inside the allocated block.", "quantifier": "every sequence of append operations with any contents", "why_tests_cant": "Growth arithmetic depends on all possible lengths around the 128-byte chunk boundaries.", "anchors": ["src/common/utils.c: bc_string_new, bc_string_append_len, bc_string_append, bc_string_append_c, bc_string_dup, bc_string_append_escaped"]}
{"id": "C07", "title": "Splitting and joining are inverse", "statement": "Joining the pieces bc_str_split returns with the separator gives the original string back; no piece contains the separator when max_pieces is 0; the number of pieces is the number of separators plus one, capped by max_pieces; only the last piece may contain separators; the empty string gives no piece.", "quantifier": "every string, separator and max_pieces", "why_tests_cant": "Unbounded strings; off-by-one errors at empty pieces, trailing separators and the cap.", "anchors": ["src/common/utils.c: bc_str_split, bc_strv_join, bc_strv_length"]}
{"id": "C08", "title": "Replacing a character substitutes every occurrence", "statement": "bc_str_replace(s, c, r) is s with every occurrence of c replaced by r and every other byte kept in order.", "quantifier": "every string, character and replacement", "why_tests_cant": "Unbounded strings and replacement strings (which may contain the searched character).", "anchors": ["src/common/utils.c: bc_str_replace"]}
{"id": "C09", "title": "Stripping removes exactly the surrounding white space", "statement": "bc_str_strip returns the unique substring of s whose first and last bytes are not white space and such that everything removed on both sides is white space; it is idempotent.", "quantifier": "every string", "why_tests_cant": "Unbounded strings, including empty and all-blank ones.", "anchors": ["src/common/utils.c: bc_str_lstrip, bc_str_rstrip, bc_str_strip"]}
{"id": "C10", "title": "Shell quoting yields one literal word", "statement": "Under POSIX shell word splitting and quote removal, the output of bc_shell_quote(s) is read as exactly one word whose value is s, whatever precedes or follows it after a blank; no byte of s is interpreted by the shell.", "quantifier": "every string s", "why_tests_cant": "A quoting bug is a command injection; all byte strings must be covered.", "anchors": ["src/common/utils.c: bc_shell_quote"]}
{"id": "C11", "title": "Sorting is a stable sort that always terminates", "statement": "bc_slist_sort returns a permutation of its input for any comparison function; if the comparison is a total preorder the result is ordered and elements comparing equal keep their relative order; it terminates and never dereferences past the end of the list for any comparison function at all.", "quantifier": "every list and every comparison function", "why_tests_cant": "Depends on every list and comparator, including inconsistent comparators.", "anchors": ["src/common/sort.c: bc_slist_sort"]}
{"id": "C12", "title": "Sorting posts orders them by date, newest first", "statement": "With FILTER_SORT set, posts are listed in non-increasing order of their dates whatever the dates are.", "quantifier": "every list of posts with dates representable as time_t", "why_tests_cant": "The comparison subtracts 64-bit times and truncates to int; only pairs at least 2^31 seconds apart expose it.", "anchors": ["src/blogc/loader.c: sort_source, blogc_source_parse_from_files", "src/common/sort.c: bc_slist_sort"]}
{"id": "C13", "title": "Backslash-aware search stays inside the string", "statement": "bc_str_find(s, c) returns the first unescaped occurrence of c in s or NULL, and reads no byte after the terminating NUL.", "quantifier": "every string and character", "why_tests_cant": "Out-of-bounds reads are invisible to ordinary assertions.", "anchors": ["src/common/utils.c: bc_str_find"]}
{"id": "C14", "title": "Parse errors point at the offending line and column", "statement": "The line and position reported by bc_error_parser for an offset are the 1-based line number and column of that offset when lines are terminated by LF, CR or CRLF, and the quoted line is that line.", "quantifier": "every source text and every offset in it", "why_tests_cant": "Depends on every mixture of newline styles before the error.", "anchors": ["src/common/error.c: bc_error_parser"]}
{"id": "C15", "title": "Configuration parsing is total and memory-safe", "statement": "bc_config_parse on any bytes terminates, reads only bytes inside the buffer, and returns either a configuration or an error, never both and never neither for non-empty input.", "quantifier": "every byte buffer and every list of list-section names", "why_tests_cant": "Every byte string is an input.", "anchors": ["src/common/config-parser.c: bc_config_parse"]}
{"id": "C16", "title": "Configuration files mean what they say", "statement": "For a configuration written as [section] headers followed by key = value lines (or list items for list sections) with one line each, bc_config_parse yields exactly those sections, keys and values, retrievable through bc_config_get, bc_config_list_keys, bc_config_get_list; quoting preserves leading and trailing blanks and escaped characters.", "quantifier": "every well-formed configuration of any size", "why_tests_cant": "Round-trip over an unbounded family of documents.", "anchors": ["src/common/config-parser.c: bc_config_parse, bc_config_get, bc_config_get_list, bc_config_list_keys, bc_config_list_sections"]}
{"id": "C17", "title": "No configuration item is lost at end of file", "statement": "The last line of a configuration file takes effect whether or not it ends with a newline.", "quantifier": "every well-formed configuration", "why_tests_cant": "End-of-buffer handling interacts with every parser state.", "anchors": ["src/common/config-parser.c: bc_config_parse"]}
{"id": "C18", "title": "Datetime parsing accepts exactly the documented formats", "statement": "blogc_convert_datetime accepts a string iff it is yyyy-mm-dd, yyyy-mm-dd hh, yyyy-mm-dd hh:mm or yyyy-mm-dd hh:mm:ss with in-range numeric fields, and the broken-down time handed to strftime carries exactly these numbers.", "quantifier": "every string", "why_tests_cant": "All strings, including near misses at every position.", "anchors": ["src/blogc/datetime-parser.c: blogc_convert_datetime"]}
{"id": "C19", "title": "Template parsing is total and memory-safe", "statement": "blogc_template_parse on any bytes terminates, never reads outside the buffer, and reports either an error or an AST.", "quantifier": "every byte buffer", "why_tests_cant": "Every byte string is an input.", "anchors": ["src/blogc/template-parser.c: blogc_template_parse"]}
{"id": "C20", "title": "Accepted templates are well-structured", "statement": "In every AST accepted by blogc_template_parse blocks are not nested and are all closed, every if/ifdef/ifndef has its endif and foreach its endforeach, and else belongs to an open conditional.", "quantifier": "every byte buffer the parser accepts", "why_tests_cant": "A property of all accepted inputs, through a parser with lookahead state and counters.", "anchors": ["src/blogc/template-parser.c: blogc_template_parse"]}
{"id": "C21", "title": "Template text is preserved verbatim", "statement": "Text outside statements and variables appears in the AST unchanged and in order, apart from white space removed next to {%- and -%}.", "quantifier": "every template made of text, variables and statements", "why_tests_cant": "Unbounded text; includes the last bytes of the file.", "anchors": ["src/blogc/template-parser.c: blogc_template_parse"]}
{"id": "C22", "title": "Rendering a parsed template never crashes", "statement": "blogc_render on any AST produced by blogc_template_parse, any sources and any configuration terminates and never dereferences NULL or reads past the AST.", "quantifier": "every accepted template, every list of sources, every variable assignment", "why_tests_cant": "The renderer jumps over the statement list with ad-hoc skip loops; only an invariant over all templates excludes running off the end.", "anchors": ["src/blogc/renderer.c: blogc_render"]}
{"id": "C23", "title": "Rendering follows the block structure", "statement": "For properly nested templates, the output is the one given by the obvious recursive reading: text is copied, variables substituted, exactly one branch of each conditional is rendered, foreach bodies once per item, entry/listing/listing_once/listing_empty/listing_entry bodies according to mode.", "quantifier": "every properly nested template, every list of sources, every variable assignment", "why_tests_cant": "Equivalence of a flat jump-based interpreter with a recursive semantics for all programs.", "anchors": ["src/blogc/renderer.c: blogc_render"]}
{"id": "C24", "title": "Variable resolution order", "statement": "A variable reference resolves to the local value if the source defines it, otherwise to the global value, otherwise is empty; FOO_FORMATTED and FOO_N meta-variables only apply when no variable of that exact name exists, and FOO_N yields the first N bytes of FOO.", "quantifier": "every pair of variable scopes and every variable name", "why_tests_cant": "Every name shape (digits, underscores, suffixes) and every pair of scopes.", "anchors": ["src/blogc/renderer.c: blogc_get_variable, blogc_format_variable"]}
{"id": "C25", "title": "Source files parse to their variables and content", "statement": "blogc_source_parse on 'KEY: value' lines, a dashed separator and a content yields exactly those variables with surrounding blanks stripped plus RAW_CONTENT; reserved names are rejected.", "quantifier": "every well-formed source file of any size", "why_tests_cant": "Round-trip over an unbounded family of documents.", "anchors": ["src/blogc/source-parser.c: blogc_source_parse"]}
{"id": "C26", "title": "Source parsing is total and memory-safe", "statement": "blogc_source_parse on any bytes terminates, reads only inside the buffer, and returns either variables or an error.", "quantifier": "every byte buffer", "why_tests_cant": "Every byte string is an input.", "anchors": ["src/blogc/source-parser.c: blogc_source_parse"]}
{"id": "C27", "title": "HTML escaping is complete and faithful", "statement": "blogc_htmlentities output contains none of < > \" ' and no & that does not start one of the emitted entities; decoding those entities gives the input back, so distinct texts have distinct escapes.", "quantifier": "every string", "why_tests_cant": "Injection safety must hold for all texts.", "anchors": ["src/blogc/content-parser.c: blogc_htmlentities, htmlentities_append"]}
{"id": "C28", "title": "Header anchors are well-formed identifiers", "statement": "blogc_slugify output has the length of its input, only contains a-z, 0-9 and '-', maps letters to lower case, keeps digits and is idempotent.", "quantifier": "every string", "why_tests_cant": "All byte strings including non-ASCII bytes.", "anchors": ["src/blogc/content-parser.c: blogc_slugify"]}
{"id": "C29", "title": "Content parsing terminates without undefined behaviour", "statement": "blogc_content_parse on any UTF-8 text terminates, reads only inside the text, and never uses freed memory.", "quantifier": "every text", "why_tests_cant": "Memory errors depend on the exact mix of blocks, list continuations and newline styles.", "anchors": ["src/blogc/content-parser.c: blogc_content_parse, blogc_content_parse_inline"]}
{"id": "C30", "title": "Plain paragraphs render as escaped paragraphs", "statement": "A text made of paragraphs without markup characters separated by blank lines renders as one <p> element per paragraph, in order, containing the HTML-escaped text.", "quantifier": "every sequence of markup-free paragraphs", "why_tests_cant": "Unbounded documents; last-line handling depends on the whole state machine.", "anchors": ["src/blogc/content-parser.c: blogc_content_parse, blogc_content_parse_inline"]}
{"id": "C31", "title": "Table of contents is a well-nested list of the headers within depth", "statement": "blogc_toctree_render outputs balanced <ul>/</ul> tags, lists exactly the headers whose level is within TOCTREE_MAXDEPTH of the smallest level, in document order, each at nesting depth level - lowest + 1; depth 0 or no headers gives nothing.", "quantifier": "every list of headers and every maximum depth", "why_tests_cant": "Arbitrary sequences of levels up and down.", "anchors": ["src/blogc/toctree.c: bc_toctree_append, bc_toctree_render"]}
{"id": "C32", "title": "File lists ignore comments and blanks and nothing else", "statement": "blogc_filelist_parse returns, in order, every line stripped, except empty lines and lines starting with '#', for any line terminator.", "quantifier": "every file list text", "why_tests_cant": "Unbounded lists; last line with or without terminator.", "anchors": ["src/blogc/filelist-parser.c: blogc_filelist_parse"]}
{"id": "C33", "title": "FILENAME is the base name without extension", "statement": "get_filename yields the last path component up to its last dot.", "quantifier": "every path", "why_tests_cant": "All paths, including dots in directories, leading dots and no dots.", "anchors": ["src/blogc/loader.c: blogc_get_filename"]}
{"id": "C34", "title": "Pagination partitions the listing", "statement": "For a positive page size the pages 1..LAST_PAGE, concatenated, are exactly the (filtered, ordered) listing, no page exceeds the size, and all but the last are full; CURRENT/PREVIOUS/NEXT/FIRST/LAST_PAGE are consistent with it; a page size of zero or less lists nothing.", "quantifier": "every list of posts, every page size and page number", "why_tests_cant": "Arithmetic over all sizes, including overflow of float and int conversions.", "anchors": ["src/blogc/loader.c: blogc_source_parse_from_files"]}
{"id": "C35", "title": "Tag filtering keeps exactly the tagged posts", "statement": "With FILTER_TAG=t the listing contains, in order, exactly the posts whose TAGS variable has t among its space-separated items.", "quantifier": "every list of posts, every tag", "why_tests_cant": "All tag lists, including tags that are substrings of each other.", "anchors": ["src/blogc/loader.c: blogc_source_parse_from_files"]}
{"id": "C36", "title": "Listings expose consistent first/last metadata", "statement": "DATE_FIRST/FILENAME_FIRST and DATE_LAST/FILENAME_LAST are those of the first and last listed posts; a mix of dated and undated posts is rejected.", "quantifier": "every list of posts", "why_tests_cant": "All lists and all patterns of missing dates.", "anchors": ["src/blogc/loader.c: blogc_source_parse_from_files"]}
{"id": "C37", "title": "Only git transfer commands are accepted by the login shell", "statement": "bgr_shell_command_parse returns a repository for 'git-receive-pack', 'git-upload-pack' or 'git-upload-archive' followed by one shell-quoted path and nothing for any other command; the returned path is the quoted one with a leading slash removed.", "quantifier": "every command string", "why_tests_cant": "The argument comes from an untrusted SSH client.", "anchors": ["src/blogc-git-receiver/shell-command-parser.c: bgr_shell_command_parse"]}
{"id": "C38", "title": "Repositories stay below the base directory", "statement": "Whatever repository path the client sends, the directory the login shell creates and serves is inside the repos directory.", "quantifier": "every command string", "why_tests_cant": "Adversarial paths.", "anchors": ["src/blogc-git-receiver/shell.c: bgr_shell", "src/blogc-git-receiver/shell-command-parser.c: bgr_shell_command_parse"]}
{"id": "C39", "title": "The pre-receive hook deploys the pushed branch", "statement": "bgr_pre_receive_parse returns the new hash of the last update of refs/heads/master in the hook input, else of refs/heads/main, and nothing if neither is updated.", "quantifier": "every hook input", "why_tests_cant": "Arbitrary numbers of ref updates, including malformed lines.", "anchors": ["src/blogc-git-receiver/pre-receive-parser.c: bgr_pre_receive_parse"]}
{"id": "C40", "title": "Deployment keeps the site available", "statement": "At every crash point of the deploy procedure the published symlink points at a complete build (old or new), and a failed build leaves the published site unchanged.", "quantifier": "every crash point and every failure of a step", "why_tests_cant": "Crash points between system calls cannot be hit by unit tests.", "anchors": ["src/blogc-git-receiver/pre-receive.c: bgr_pre_receive_hook"]}
{"id": "C41", "title": "URL decoding inverts percent-encoding", "statement": "br_urldecode(s) replaces each %XY by the byte 0xXY and nothing else, rejects malformed escapes, and decodes the percent-encoding of any NUL-free byte string back to it.", "quantifier": "every string", "why_tests_cant": "All byte strings and all malformed escapes.", "anchors": ["src/blogc-runserver/httpd-utils.c: br_urldecode, br_hextoi"]}
{"id": "C42", "title": "Content types follow the file extension", "statement": "br_mime_guess_content_type picks the type registered for the extension after the last dot of the file name, application/octet-stream otherwise.", "quantifier": "every file name", "why_tests_cant": "All names.", "anchors": ["src/blogc-runserver/mime.c: br_mime_guess_content_type", "src/blogc-runserver/httpd-utils.c: br_get_extension"]}
{"id": "C43", "title": "The web server never serves files outside the document root", "statement": "Whatever request is received, a file is only served if its real path lies under the document root directory.", "quantifier": "every request, every file system layout", "why_tests_cant": "Adversarial requests and arbitrary directory layouts.", "anchors": ["src/blogc-runserver/httpd.c: handle_request"]}
{"id": "C44", "title": "Requests are served by at most max_threads threads", "statement": "In the accept loop, at every point of every schedule at most max_threads worker threads are running and no two running workers share a slot; every finished worker is joined before its slot is reused.", "quantifier": "every schedule of accepts and thread terminations", "why_tests_cant": "Interleavings.", "anchors": ["src/blogc-runserver/httpd.c: br_httpd_run"]}
{"id": "C45", "title": "blogcfile settings have documented defaults", "statement": "bm_settings_parse succeeds iff the configuration parses, all global keys are valid names and the five required ones are present and non-empty; every setting takes the configured value or its documented default.", "quantifier": "every configuration", "why_tests_cant": "All configurations.", "anchors": ["src/blogc-make/settings.c: bm_settings_parse"]}
{"id": "C46", "title": "Output file names are predictable and inside the output directory", "statement": "bm_generate_filename joins directory, prefixes, name and extension with the documented special cases for index pages; different posts (tags, pages) get different file names.", "quantifier": "every combination of directory, prefixes, names and extensions", "why_tests_cant": "Collisions overwrite pages; all combinations of empty parts and slashes matter.", "anchors": ["src/blogc-make/utils.c: bm_generate_filename, bm_generate_filename2"]}
{"id": "C47", "title": "blogc commands carry configuration values literally", "statement": "The command line built for blogc, when split by a POSIX shell, is the intended argument vector: every variable value, path and tag from the blogcfile reaches blogc as one literal argument.", "quantifier": "every settings value", "why_tests_cant": "Injection safety over all strings.", "anchors": ["src/blogc-make/exec.c: bm_exec_build_blogc_cmd, list_variables, bm_exec_blogc_runserver"]}
{"id": "C48", "title": "Incremental builds never leave stale output", "statement": "If bm_rule_need_rebuild says no, the output exists and is at least as new as the settings, the template, the listing entry and every source; if it says yes, one of them is missing or newer.", "quantifier": "every set of files with any modification times", "why_tests_cant": "All combinations of second/nanosecond timestamps and missing files.", "anchors": ["src/blogc-make/rules.c: bm_rule_need_rebuild"]}
{"id": "C49", "title": "blogc-make fails if any requested rule fails", "statement": "bm_rule_executor returns zero only if every requested rule exists and succeeded.", "quantifier": "every list of requested rules and every outcome of each", "why_tests_cant": "All lists of rules and outcomes.", "anchors": ["src/blogc-make/rules.c: bm_rule_executor, bm_rule_execute"]}
{"id": "C50", "title": "Watch mode recovers from a broken blogcfile", "statement": "After a reload fails because the blogcfile is invalid, fixing the blogcfile makes a later reload succeed.", "quantifier": "every history of file changes observed by the reloader", "why_tests_cant": "Long-running histories.", "anchors": ["src/blogc-make/ctx.c: bm_ctx_reload, bm_ctx_new", "src/blogc-make/reloader.c: bm_reloader_run"]}
{"id": "C51", "title": "Running blogc from blogc-make cannot deadlock", "statement": "Under every scheduling of parent and child and for every amount of input and output, bm_exec_command eventually collects the child's output.", "quantifier": "every schedule, pipe capacity, input size and child behaviour", "why_tests_cant": "Deadlocks need particular sizes and schedules.", "anchors": ["src/blogc-make/exec.c: bm_exec_command"]}
{"id": "C52", "title": "clean only removes files inside the output directory", "statement": "The clean rule unlinks only files that build rules produce and removes only directories that are empty and inside the output directory.", "quantifier": "every file tree and settings", "why_tests_cant": "Destructive; arbitrary trees and path spellings.", "anchors": ["src/blogc-make/exec-native.c: bm_exec_native_rm, bm_exec_native_is_empty_dir", "src/blogc-make/rules.c: clean_exec"]}
{"id": "C53", "title": "Copying reproduces the file exactly", "statement": "If bm_exec_native_cp returns 0 the destination holds exactly the source bytes, for every way reads and writes are split.", "quantifier": "every content and every sequence of short reads and writes", "why_tests_cant": "Short writes are chosen by the kernel.", "anchors": ["src/blogc-make/exec-native.c: bm_exec_native_cp"]}
{"id": "C54", "title": "Rule arguments parse to key-value pairs", "statement": "bm_rule_parse_args on ':k1=v1,k2=v2,...' yields exactly that mapping (last wins).", "quantifier": "every argument string", "why_tests_cant": "All strings.", "anchors": ["src/blogc-make/rules.c: bm_rule_parse_args"]}
{"id": "C55", "title": "Command-line variables must have valid names", "statement": "blogc -D accepts KEY=VALUE iff KEY starts with A-Z and continues with A-Z, 0-9 and _; anything else is an error, and the value is everything after the first '='.", "quantifier": "every -D argument", "why_tests_cant": "All strings.", "anchors": ["src/blogc/main.c: main"]}
{"id": "C56", "title": "Reordering options compose as documented", "statement": "FILTER_SORT and FILTER_REVERSE together give ascending dates; FILTER_REVERSE alone gives the reverse of the given order; the settings html_order/atom_order/posts_sort map to these so that DESC lists the newest (or last listed) first.", "quantifier": "every list of posts and every setting value", "why_tests_cant": "All combinations of flags and lists.", "anchors": ["src/blogc/loader.c: blogc_source_parse_from_files", "src/blogc-make/rules.c: posts_ordering"]}
{"id": "C57", "title": "Reading a file always terminates", "statement": "bc_file_get_contents returns (contents or an error) for every path that can be opened, readable or not.", "quantifier": "every stream, including one whose reads fail", "why_tests_cant": "Needs a failing device or a directory and is about every number of iterations.", "anchors": ["src/common/file.c: bc_file_get_contents"]}
{"id": "C58", "title": "Inline markup means what the manual says", "statement": "Emphasis, strong emphasis, code, links, automatic links, images, line breaks, dashes and escapes are rendered as documented, in any combination and nesting.", "quantifier": "every text with a meaning in the grammar of inline markup", "why_tests_cant": "Nesting and adjacency of marks is unbounded; tests fix a few texts.", "anchors": ["src/blogc/content-parser.c: blogc_content_parse_inline"]}
{"id": "C59", "title": "Content output is well-formed, escaped HTML", "statement": "Whatever the source text, the HTML blogc_content_parse returns consists of closed elements with escaped text; the excerpt ends between blocks; first header and description are escaped; header anchors are identifiers.", "quantifier": "every source text the parser accepts", "why_tests_cant": "Holds for all texts, malformed markup included.", "anchors": ["src/blogc/content-parser.c: blogc_content_parse, blogc_content_parse_inline"]}
{"id": "C60", "title": "Documents render block by block", "statement": "Headers, paragraphs, rules, code blocks, blockquotes, lists, HTML blocks and excerpt marks, in any order and nesting and with any of the four line endings, render as the concatenation of their HTML; first header, description, excerpt and table-of-contents headers are those of the document.", "quantifier": "every document of the block grammar", "why_tests_cant": "Unbounded documents over the whole state machine, including line-ending detection.", "anchors": ["src/blogc/content-parser.c: blogc_content_parse"]}
{"id": "C61", "title": "Every request line is answered", "statement": "For every request line the server answers: nothing to an empty line, 400 unless it has three parts, 405 unless the method is GET, otherwise what the path before '?' refers to; it never crashes.", "quantifier": "every request line, every file system", "why_tests_cant": "Only a few request lines can be tried; the crash needs one particular shape.", "anchors": ["src/blogc-runserver/httpd.c:56-216"]}
{"id": "C62", "title": "Responses are well-formed HTTP messages", "statement": "Every response is one HTTP message: a status line, headers and a body whose length is the Content-Length; the body of a 200 response is the file and its Content-Type the one of its extension; nothing in a request adds headers.", "quantifier": "every request, every file", "why_tests_cant": "Header injection and length mismatches depend on particular bytes in names and contents.", "anchors": ["src/blogc-runserver/httpd.c:38-52", "src/blogc-runserver/httpd.c:155-198"]}
{"id": "C63", "title": "The request line does not depend on segmentation", "statement": "br_readline returns what the client sent up to the first CR, LF or NUL, however the data is split over reads.", "quantifier": "every request and every way it is split over reads", "why_tests_cant": "Tests provide one fixed sequence of reads.", "anchors": ["src/blogc-runserver/httpd-utils.c:11-37"]}
{"id": "C64", "title": "A failed build leaves the output alone", "statement": "blogc creates, empties or writes only the output file and the directories on the way to it, and only after every source, listing entry and the template were read and found correct; a non-zero status means the output was not opened; status zero means the page the template describes was printed or stored.", "quantifier": "every command line, standard input and file system", "why_tests_cant": "Each failure would have to be provoked at each point of the run.", "anchors": ["src/blogc/main.c:91-123", "src/blogc/main.c:267-388"]}
{"id": "C65", "title": "blogc-make's commands do what the rule meant", "statement": "Running the command blogc-make builds, through the shell and blogc's own option parser, compiles exactly the rule's sources with its template, output and listing entry, and every variable has the value of the closest of: development flags, the file's variables, the rule's, the blogcfile's, the tags, blogc's version.", "quantifier": "every blogcfile, rule variables and list of sources", "why_tests_cant": "Composition of quoting, the shell, option parsing and the file list over all strings.", "anchors": ["src/blogc-make/exec.c: bm_exec_build_blogc_cmd, bm_exec_blogc, bm_exec_blogc_get_variable", "src/blogc/main.c:139-288"]}
{"id": "C66", "title": "Building twice builds once", "statement": "If every file of the site is up to date, 'blogc-make all' runs blogc for nothing but the number of pages and copies nothing; in particular a second run right after a successful one does nothing.", "quantifier": "every site, every state of the file system, every behaviour of the tools", "why_tests_cant": "Quantifies over all blogcfiles, times and tool behaviours.", "anchors": ["src/blogc-make/rules.c: all_exec and the nine rules"]}
{"id": "C67", "title": "A successful build leaves every file up to date, and touches no file that was", "statement": "If 'blogc-make all' returns 0, every documented output file exists and is not older than the settings, template, listing entry and sources it depends on. An output that was up to date is not touched, whatever else happens.", "quantifier": "every site and initial state; every tool that writes its output with the current time", "why_tests_cant": "All combinations of stale and fresh outputs, pages and tags.", "anchors": ["src/blogc-make/rules.c: all_exec and the nine rules"]}
{"id": "C68", "title": "Every output file is made from its own recipe", "statement": "'blogc-make all' runs only blogc commands for files of the site, each with the rule's documented variables (page, tag, order, rule, type, slug), template and sources, and copies only the files to copy to their places; the pages of a tag get that tag and that page.", "quantifier": "every site and every state of the file system", "why_tests_cant": "All sites; the tag and page are searched again from file names.", "anchors": ["src/blogc-make/rules.c: index_exec, atom_exec, atom_tags_exec, pagination_exec, pagination_tags_exec, posts_exec, tags_exec, pages_exec, copy_exec"]}
{"id": "C69", "title": "clean removes all that was built", "statement": "If 'blogc-make clean' returns 0, no file that the build rules make is left.", "quantifier": "every site and every state of the file system; unlink and rmdir that remove what they are given and make nothing", "why_tests_cant": "All sites and file trees.", "anchors": ["src/blogc-make/rules.c: clean_exec, bm_rule_list_built_files", "src/blogc-make/exec-native.c: bm_exec_native_rm"]}
{"id": "C70", "title": "Watching a site brings every change into it", "statement": "While blogc-make watches a site and files neither disappear nor get older, after each turn of the loop that succeeds every file of the site exists and is at least as recent as every source, template and setting it depends on was on the disk when that turn started to build.", "quantifier": "every site, every history of changes and turns, every behaviour of the tools that leaves other files alone", "why_tests_cant": "The claim is about unbounded histories; a test watches a few changes.", "anchors": ["src/blogc-make/ctx.c: bm_ctx_reload, bm_filectx_reload, bm_filectx_changed", "src/blogc-make/reloader.c: bm_reloader_run"]}
{"id": "C71", "title": "blogc-make looks at exactly the files the blogcfile names", "statement": "After reading a blogcfile, the context holds for each post, page and listing entry the source at the documented path with its time on the disk, in the order of the blogcfile; the files to copy are exactly the files at or below the names listed; relative names are relative to the directory of the blogcfile; and reading ends for every tree of directories.", "quantifier": "every blogcfile, disk, directory tree and OUTPUT_DIR", "why_tests_cant": "Directory trees and settings are unbounded.", "anchors": ["src/blogc-make/ctx.c: bm_ctx_new, bm_filectx_new, bm_filectx_new_r"]}
{"id": "C72", "title": "The generated feed lists the posts and names its own address", "statement": "The template blogc-make generates for Atom feeds is a valid template, and rendering it for any listing gives a feed with the site's title (and the tag, for a feed of a tag), one entry per post in the order of the listing with its title, dates, author and content, and as self link the address of the file the feed is written to.", "quantifier": "every blogcfile, every listing of posts, every tag", "why_tests_cant": "The template is put together from settings with printf and then parsed and rendered; tests compare it for a few settings.", "anchors": ["src/blogc-make/atom.c: bm_atom_generate", "src/blogc/template-parser.c", "src/blogc/renderer.c"]}
{"id": "C73", "title": "The entries of the feed link to the pages of the posts", "statement": "The address of each entry of the generated feed is that of the file blogc-make writes the post to.", "quantifier": "every post, prefix and extension", "why_tests_cant": "The two names are computed by different programs from different inputs (the slug and the name of the source).", "anchors": ["src/blogc-make/atom.c: bm_atom_generate", "src/blogc-make/rules.c: posts_outputlist", "src/blogc/loader.c: blogc_get_filename"]}
{"id": "C74", "title": "The generated feed is well-formed XML", "statement": "Whatever the title of the site, the posts and their contents, the feed is a well-formed XML document.", "quantifier": "every configuration and every listing of posts", "why_tests_cant": "No test parses the feed, let alone for arbitrary values.", "anchors": ["src/blogc-make/atom.c: atom_template"]}
{"id": "C75", "title": "A push is only served with the hooks in place", "statement": "blogc-git-receiver hands a push over to git only in a repository that exists or was just created, after both hooks were made to point to the login shell and no step failed; and every command handed over fits into the buffer it is built in.", "quantifier": "every command sent, every outcome of every call", "why_tests_cant": "The order of calls has to be right for every combination of failures.", "anchors": ["src/blogc-git-receiver/shell.c: bgr_shell"]}
{"id": "C76", "title": "blogc-make runserver ends when its server ends", "statement": "If the server process started by 'blogc-make runserver' ends, blogc-make builds nothing more, ends, and returns the status of the server.", "quantifier": "every interleaving of the thread that builds, the thread that waits for the server, and an interrupt from the keyboard", "why_tests_cant": "Interleavings cannot be enumerated by tests; the failing one takes place between two lines.", "anchors": ["src/blogc-make/httpd.c: httpd_thr, bm_httpd_run", "src/blogc-make/reloader.c: bm_reloader_run, bm_reloader_stop, sig_handler"]}
{"id": "C77", "title": "blogc-make runserver never waits for itself", "statement": "At every moment of 'blogc-make runserver' the thread that builds can go on, at the latest after the other thread has left its critical section; in particular ^C ends the program.", "quantifier": "every interleaving of the two threads and of ^C", "why_tests_cant": "Deadlocks depend on the schedule.", "anchors": ["src/blogc-make/httpd.c: httpd_thr, bm_httpd_run", "src/blogc-make/reloader.c: bm_reloader_run, bm_reloader_stop, sig_handler"]}
{"id": "C78", "title": "blogc-make does what its command line asks", "statement": "For every command line of the documented form blogc-make runs exactly the rules named, in their order (all if none is named), for the site of the last blogcfile named, with -D and -V in effect wherever they stand, and returns the status of the rules; -h, -v and unknown options end it before it reads or changes anything; and every other command line is refused.", "quantifier": "every list of arguments, file system and environment", "why_tests_cant": "Command lines are unbounded and options may stand anywhere.", "anchors": ["src/blogc-make/main.c: main"]}
{"id": "C79", "title": "A run of blogc-make that returns 0 leaves the site up to date", "statement": "If blogc-make, asked for build rules on its command line, returns 0, then for the site that the blogcfile on the disk describes every file of these rules exists and is at least as recent as all files it depends on were on the disk; the temporary feed template is gone.", "quantifier": "every command line, blogcfile, directory tree, environment and behaviour of the tools that leaves other files alone", "why_tests_cant": "It is about the whole program, for all sites.", "anchors": ["src/blogc-make/main.c: main", "src/blogc-make/ctx.c: bm_ctx_new, bm_ctx_free", "src/blogc-make/rules.c: bm_rule_executor, bm_rule_execute"]}
{"id": "C80", "title": "Removing a build removes that build only", "statement": "Removing the directory of an old or failed build removes everything below it and nothing else, ends, and succeeds if the files may be removed; if it cannot, nothing outside has changed and the result of the deployment that is already done stays the result.", "quantifier": "every directory tree, with symbolic links, and every choice of files that cannot be removed", "why_tests_cant": "Trees have any depth and links may point anywhere.", "anchors": ["src/blogc-git-receiver/pre-receive.c: rmdir_recursive, bgr_pre_receive_hook"]}
{"id": "C81", "title": "A pushed site is published where the settings say", "statement": "The link of the published site is the value of symlink in the section of blogc-git-receiver.ini whose path is that of the repository, seen from the repository; without a section or value it is htdocs in the repository.", "quantifier": "every settings file, file system and name by which the hook is called", "why_tests_cant": "Settings are unbounded text and sections are matched by resolved paths.", "anchors": ["src/blogc-git-receiver/settings.c: bgr_settings_parse, bgr_settings_get_section", "src/blogc-git-receiver/pre-receive.c: bgr_pre_receive_hook"]}
{"id": "C82", "title": "A push is mirrored, and a failing mirror does not fail it", "statement": "After a push the repository is pushed to its mirror exactly once: the remote mirror of the repository if there is one, else the one of the settings; the mirror is the one argument given to git, whatever bytes it has; and the hook returns 0 whether that succeeds or not.", "quantifier": "every settings file, repository and outcome of the commands", "why_tests_cant": "The text of the command is interpreted by a shell, for all values.", "anchors": ["src/blogc-git-receiver/post-receive.c: bgr_post_receive_hook", "src/blogc-git-receiver/settings.c"]}
{"id": "C83", "title": "A login can do nothing but git transfers", "statement": "Unless blogc-git-receiver is called by the name of a hook, it makes no call and fails for every command line and environment that does not contain one of git's transfer commands; an interactive login is always refused.", "quantifier": "every list of arguments and environment", "why_tests_cant": "A security boundary: it is about all inputs of an adversary.", "anchors": ["src/blogc-git-receiver/main.c: main"]}
{"id": "C84", "title": "Rebuilding by hand builds the commit that is published", "statement": "If a deployment has published a commit, calling the hook without git deploys the same commit to the same link.", "quantifier": "every settings, commit, time and file system", "why_tests_cant": "It relates the names produced by one run to what another run reads from them.", "anchors": ["src/blogc-git-receiver/pre-receive.c: bgr_pre_receive_hook"]}
{"id": "C85", "title": "The build commands get the commit and the output directory literally", "statement": "The commands run by the hook archive exactly the pushed commit, and pass the directory that is published afterwards to the build tool, for every builds directory; without a builds directory the hook fails with a message.", "quantifier": "every environment, commit and time", "why_tests_cant": "The commands are interpreted by a shell.", "anchors": ["src/blogc-git-receiver/pre-receive.c: bgr_pre_receive_hook", "src/blogc-git-receiver/settings.c: bgr_settings_get_builds_dir"]}
{"id": "C86", "title": "A variable keeps its value in a page, and the user's value wins over the system's", "statement": "A variable given in the configuration or with -D is what every use of it in the page prints, also if it has the name of a function variable; a function variable nobody has set is what the operating system answers, the same at every use in the page.", "quantifier": "every template, configuration, list of sources and answer of the operating system", "why_tests_cant": "It is about every state reached while rendering templates with loops and conditions of any size.", "anchors": ["src/blogc/funcvars.c: blogc_funcvars_eval", "src/blogc/rusage.c: blogc_rusage_inject", "src/blogc/sysinfo.c", "src/blogc/renderer.c: blogc_render"]}
{"id": "C87", "title": "The command line of blogc-runserver decides what is served where", "statement": "The server serves the one directory given, on the last host and port given, else those of the environment, else 127.0.0.1 and 8080, with the last number of threads given, else 20; no server is started without exactly one directory, with a value of -m that is not a number from 1 to 1000, with an unknown option, or with -h or -v.", "quantifier": "every list of arguments and environment", "why_tests_cant": "Command lines are unbounded; numbers may be out of range or followed by other text.", "anchors": ["src/blogc-runserver/main.c: main"]}
{"id": "C88", "title": "blogc writes valid UTF-8", "statement": "If the sources, the template, the arguments and the list on stdin are valid UTF-8, whatever blogc prints on stdout or writes to the output file is valid UTF-8.", "quantifier": "every list of arguments, stdin, set of files, locale answers in UTF-8 and options", "why_tests_cant": "It is about every way the parsers cut texts: at markup, blanks, separators, quotes and ends of lines, in sources, templates and variables of any size.", "anchors": ["src/blogc/main.c: main", "src/blogc/content-parser.c", "src/blogc/source-parser.c", "src/blogc/template-parser.c", "src/blogc/renderer.c: blogc_render", "src/blogc/loader.c"]}
{"id": "C89", "title": "Every file of a built site holds what it should", "statement": "After a successful 'blogc-make all', every file of the site - index, feeds, pages of the listings, posts, tags, pages - holds exactly the text blogc renders from the current sources with the settings, template and locale of the blogcfile, and every copied file the bytes of its source; files that were not rebuilt included. The inputs are unchanged.", "quantifier": "every blogcfile, set of sources and templates, previous state of the output directory in which no file is out of date unnoticed, and every schedule of failing commands", "why_tests_cant": "It needs the whole chain: settings, file names, variables, shell quoting, blogc's command line, parsing, rendering, and the times of all files; the state left by earlier runs is part of it.", "anchors": ["src/blogc-make/rules.c: all_exec", "src/blogc-make/exec.c: bm_exec_blogc", "src/blogc/main.c: main", "src/blogc-make/exec-native.c: bm_exec_native_cp"]}
{"id": "C90", "title": "blogc depends only on the files it is told of", "statement": "What blogc prints, writes and returns depends on the file system only through the contents of the template, the listing entries and the sources named in the arguments or in the list on stdin.", "quantifier": "every list of arguments, stdin and two file systems that agree on these files", "why_tests_cant": "It compares all pairs of file systems; blogc-make's decision which files to rebuild relies on it.", "anchors": ["src/blogc/main.c: main", "src/blogc/source-parser.c: blogc_source_parse_from_file", "src/blogc/template-parser.c"]}
{"id": "C91", "title": "However a site is edited and built, a successful run brings it up to date", "statement": "Start with no output; edit sources, templates or the blogcfile, remove files of the output, and run 'blogc-make all' as often as you like, also if some runs fail. After each run that succeeds, every file of the site is not older than what it depends on and holds what the sources of that moment say, as long as each edit got a later time than the files built before.", "quantifier": "every history of edits and runs of a site, every outcome of the commands run", "why_tests_cant": "Histories are unbounded; each run only rebuilds what the times say, and relies on what earlier runs left.", "anchors": ["src/blogc-make/rules.c: all_exec", "src/blogc-make/rules.c: bm_rule_need_rebuild", "src/blogc-make/ctx.c: bm_ctx_new", "src/blogc-make/exec.c: bm_exec_blogc"]}
{"id": "C92", "title": "A site has as many pages of each listing as its posts fill", "statement": "blogc-make makes the pages 1 to L of a listing, where L is the number of pages the posts of the listing fill at posts_per_page each: all posts for the main listing, the posts with the tag for the listing of a tag.", "quantifier": "every blogcfile and set of posts blogc can read, every number of posts and posts per page", "why_tests_cant": "It joins two programs: blogc-make asks blogc, over a pipe, for LAST_PAGE, and blogc counts the posts of its list after filtering; the number of posts is unbounded.", "anchors": ["src/blogc-make/rules.c: pagination_outputlist", "src/blogc-make/exec.c: bm_exec_blogc_get_variable", "src/blogc/loader.c: blogc_source_parse_from_files", "src/blogc/main.c: main"]}
{"id": "C93", "title": "The pages of a listing, taken together, show every post once", "statement": "After a successful 'blogc-make all' there is one order of the posts of a listing such that page k of the listing shows the k-th piece of posts_per_page posts of it, says it is page k of L, and names the page before and after.", "quantifier": "every site, number of posts, tag and page", "why_tests_cant": "The pages are made by different runs of blogc, some perhaps long ago; that they fit together holds only if every run orders and cuts the posts alike.", "anchors": ["src/blogc-make/rules.c: pagination_exec", "src/blogc-make/rules.c: pagination_tags_exec", "src/blogc/loader.c: blogc_source_parse_from_files"]}
{"id": "C94", "title": "blogc -p tells what a template would show", "statement": "With -p NAME blogc prints the value of the variable NAME and a newline: the text a template that only shows that variable (in the entry block, or outside the blocks for a listing) renders to from the same arguments and files. If the variable is not defined nothing is printed and the status is 78. Any other failure is one the run with the template has as well.", "quantifier": "every command line, file system and variable name", "why_tests_cant": "Two ways through the program are compared for all sources, options and names, with sizes, formats and variables computed on demand.", "anchors": ["src/blogc/main.c: main", "src/blogc/renderer.c: blogc_format_variable, blogc_render"]}
{"id": "C95", "title": "What blogc-make leaves on the disk, from its command line", "statement": "Given a command line that asks for rules that build, blogc-make either complains and returns 1 before it runs a rule, or it reads the blogcfile and runs the rules; whatever it returns then, no file of the site is out of date unless the times show it, if that was so before, and the inputs are as they were. If it returns 0, every file of the rules asked for holds what the blogcfile, the templates and the sources on the disk say. The feed template it may have written itself is removed.", "quantifier": "every command line, file system, blogcfile and earlier state of the output directory", "why_tests_cant": "The claim joins the parsing of the arguments, the reading of the configuration and the file system, the choice of what to rebuild, the commands sent through the shell and what blogc does with them.", "anchors": ["src/blogc-make/main.c: main", "src/blogc-make/ctx.c: bm_ctx_new", "src/blogc-make/rules.c: bm_rule_executor", "src/blogc/main.c: main"]}
{"id": "C96", "title": "The time and memory that a page shows", "statement": "A page that shows BLOGC_RUSAGE_CPU_TIME or BLOGC_RUSAGE_MEMORY, when nobody has set them, shows what the operating system counted: the time in us below a millisecond, exactly in ms below a second, and in s to the nearest millisecond from there on; the memory in KB below 1024, and to the nearest thousandth of a MB or GB from there on.", "quantifier": "every usage of time and memory, every configuration", "why_tests_cant": "The numbers go through a float and a double before they are printed with three decimals; tests look at a few numbers, the claim is about all of them and about where float stops being exact.", "anchors": ["src/blogc/rusage.c: blogc_rusage_format_cpu_time", "src/blogc/rusage.c: blogc_rusage_format_memory", "src/blogc/rusage.c: blogc_rusage_inject"]}
{"id": "C97", "title": "Telling whether blogc runs inside docker", "statement": "BLOGC_SYSINFO_INSIDE_DOCKER, when nobody has set it, is 1 if /proc/1/cgroup can be read and contains /docker/, and is not defined otherwise; asking more than once gives the same answer.", "quantifier": "every content of the file, every number of questions", "why_tests_cant": "The answer is kept in static variables, and tests run in one environment.", "anchors": ["src/blogc/sysinfo.c: blogc_sysinfo_get_inside_docker", "src/blogc/sysinfo.c: blogc_sysinfo_inject_inside_docker"]}
{"id": "C98", "title": "What blogc -d says about a template", "statement": "For every template that is accepted, blogc -d writes one record for each text, variable and statement, in the order of the template, with the word of the statement in capitals, its name, and the operator and operand as written; no string it prints is missing.", "quantifier": "every accepted template", "why_tests_cant": "The operator is kept as bits and printed by a chain of tests; a wrong one shows the wrong operator for one of six, and no unit test covers the file.", "anchors": ["src/blogc/debug.c: get_operator", "src/blogc/debug.c: blogc_debug_template"]}
{"id": "C99", "title": "What a command of blogc-make leaves behind", "statement": "Whichever of the calls to pipe, fork, write and read fails, bm_exec_command uses no descriptor it has closed, closes none twice and leaves none open; it reports an error exactly if a call failed, and otherwise the status of the command and all that it wrote; a command that was started is waited for.", "quantifier": "every combination of failing calls, every sequence of reads", "why_tests_cant": "The failures depend on the state of the system and there are many paths; tests replace the calls and follow two or three of them.", "anchors": ["src/blogc-make/exec.c: bm_exec_command"]}
{"id": "C100", "title": "What blogc-make says when blogc cannot be asked", "statement": "When blogc fails to give a variable for another reason than the variable not being set, blogc-make writes to stderr what blogc said.", "quantifier": "every way in which the command can end", "why_tests_cant": "It depends on what another process writes before it ends; tests give it an answer.", "anchors": ["src/blogc-make/exec.c: bm_exec_blogc_get_variable", "src/common/utils.c: bc_str_strip"]}
{"id": "C101", "title": "A post as it is loaded from its file", "statement": "A post loaded from a file has FILENAME, the name of the file without directory and extension; its content, excerpt, first header and description; every assignment of the file; and a table of contents as deep as the file asks for, or else as the configuration asks for, or else without a limit.", "quantifier": "every file that is a list of assignments and a document, every configuration", "why_tests_cant": "It combines the loader, the source parser, the content parser and the table of contents; tests take them one at a time.", "anchors": ["src/blogc/loader.c: blogc_source_parse_from_file", "src/blogc/source-parser.c: blogc_source_parse", "src/blogc/toctree.c: blogc_toctree_render"]}
{"id": "C102", "title": "What the user is told about an error", "statement": "From what is printed of an error the user can read off the program, whether it is an error or a warning, the component and the message; and of an error in a file also the number of the line, the position in it and the line itself.", "quantifier": "every kind of error, every message; every file without LF CR pairs, every offset on a line that is not empty", "why_tests_cant": "Kinds are put together with ten format strings, and the position is the result of a loop over the file; tests compare some messages of some parsers.", "anchors": ["src/common/error.c: bc_error_parser", "src/common/error.c: bc_error_print"]}
{"id": "C103", "title": "The address on which blogc-runserver listens", "statement": "blogc-runserver listens on the first of the addresses of its host on which it can, and returns 1 if there is none; at any time at most one socket is open, the one of the server when it is announced and none when it returns 1; the text of every other address is freed; the URL it announces is that of the address and port it listens on.", "quantifier": "every list of addresses, every combination of failing calls", "why_tests_cant": "It depends on the network of the machine; the loop has eight ways out, each with its own clean-up, and no unit test covers it.", "anchors": ["src/blogc-runserver/httpd.c: br_httpd_run"]}
{"id": "C104", "title": "A request is answered, logged and forgotten", "statement": "Whatever a request asks for, its thread sends one response, logs one line with the status it sent and the line it received, closes the connection after all was sent and only once, uses and frees nothing that it does not have, and leaves nothing behind.", "quantifier": "every request line, document root and file system", "why_tests_cant": "There are a dozen ways through the function, each leaving by one of five labels, and the status sent and the one logged are set separately; no unit test covers it.", "anchors": ["src/blogc-runserver/httpd.c: handle_request", "src/blogc-runserver/httpd.c: error"]}
{"id": "C105", "title": "The command line of blogc", "statement": "A command line of the form in the manual is understood as such: flags wherever they are, the last value of -t, -o and -p, all of -e and of the sources in their order, the last definition of each variable; -h, -v and an option that does not exist write a text and nothing else, whatever follows, and return 0, 0 and 1; any other command line is an error.", "quantifier": "every command line", "why_tests_cant": "Command lines are lists of any length in which options interact; the unit tests do not call main.", "anchors": ["src/blogc/main.c: main"]}
