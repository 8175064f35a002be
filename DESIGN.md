# Formal model of blogc in Rocq (Coq 8.16.1)

The C sources in /repo are read as text and modelled by hand in
`rocq/theories/`. Nothing is extracted, and the C code is not run.

## Conventions

* A byte is `ascii`, a C buffer or string is `list ascii` (`bytes`). A C
  string is the bytes before its NUL terminator; where a NUL inside a buffer
  matters (`bc_strndup`, `strlen`) the model cuts the list explicitly.
* `size_t` values that are lengths or indices are `nat`; where wrap-around or
  truncation can be observed the model computes in `Z`/`N` with an explicit
  `mod 2^64` or truncation to `int`.
* Undefined behaviour is an outcome of the model (the `UB` constructor of
  `res`), never assumed away.
* A C loop that is not structurally recursive is recursion on fuel with an
  explicit `OutOfFuel` outcome; a theorem shows that outcome is unreachable,
  or the claim says when the loop does not end.
* Operating-system calls are parameters (section variables, or explicit oracle
  arguments); what is assumed of them stands at the definition or in the
  theorem. Effects are either state transitions of an abstract world, or
  programs over a list of system calls (`Effects.v`) whose every prefix is
  considered, or transition systems (`Pipes.v`, the accept loop in
  `Runserver.v`) whose every schedule is considered.
* Every definition cites the file and lines it models, and says where it is
  simpler than the code.

## Files

`X.v` holds the executable model of a source file, `XSpec.v` the independent
specification, `XProofs.v` and other names the proofs, and `P_*.v` the property
theorems, each followed by `Print Assumptions` and by examples that meet its
hypotheses. `T_*.v` hold the expectations of the project's unit tests.

## Trusted base

* Coq 8.16.1's kernel, including `vm_compute` (used for examples, for the
  witnesses of refutations and for finite tables such as "all 256 bytes").
* Axioms: none. `Print Assumptions` says "Closed under the global context" for
  every theorem named in `MANIFEST.json`. The development uses only Coq's
  standard library; it states no axiom, switches off no check, and uses no
  functor, module type or plugin. (A tool that lists the whole environment
  also shows opaque constants of `Coq.ssr.ssrunder`, which `Lia` loads; no
  theorem here depends on them.)
* That the model is the C code. This is by reading. The model was also compared
  with the project's own unit tests: 2866 expectations of the `check_*.c` files
  under `tests/` hold of the model by computation. They are in `T_Common.v`,
  `T_Blogc.v`, `T_Content.v`, `T_Render.v`, `T_Make.v` and `T_Server.v`,
  translated by a script from the C text. They test the model; they prove no
  property. Left out are expectations on NULL arguments, on error codes and
  on functions the model does not have.
* The C standard library as its standard says: `fread`, `strtol`, `strcmp`,
  `strchr`, `snprintf`, `dirname` are modelled by definitions; `mktime`,
  `strftime`, `realpath`, `stat`, `opendir`, `fork` and the like are oracles.
* POSIX shell quoting is specified in `ShSpec.v`, UTF-8 in `Utf8Proofs.v`, both
  written from the standards.

## What is modelled

| source | model | not modelled |
|--------|-------|--------------|
| common/utils.c | `Utils.v`, `Trie.v`, `StrBuf.v` | failing allocation (the program aborts), size_t overflow of lengths |
| common/sort.c | `Sort.v` | |
| common/utf8.c, file.c, stdin.c | `Utf8.v`, `FileIO.v` | failing `fopen` |
| common/error.c | `ErrorPos.v` (bc_error_parser), `ErrPrint.v` | `%d` given a size_t |
| common/config-parser.c | `Config.v` | |
| blogc/datetime-parser.c | `Datetime.v` | `strftime`, `mktime` (oracles) |
| blogc/template-parser.c | `Template.v` | |
| blogc/renderer.c, funcvars.c | `Renderer.v` | the values of the function variables (oracle) |
| blogc/toctree.c, filelist-parser.c | `Toctree.v`, `Filelist.v` | |
| blogc/content-parser.c | `Content.v` | |
| blogc/source-parser.c | `Source.v` | |
| blogc/loader.c | `Loader.v` | |
| blogc/main.c | `Main.v` | locale, texts of help and version |
| blogc/rusage.c, sysinfo.c | `FuncVars.v`, `Rusage.v` | the answers of the operating system are arguments |
| blogc/debug.c | `Debug.v` | |
| blogc-git-receiver/shell*.c, pre-receive*.c | `Receiver.v`, `Deploy.v`, `RmTree.v` | |
| blogc-git-receiver/settings.c, post-receive.c, main.c | `ReceiverMain.v` | what is printed |
| blogc-runserver/httpd*.c, mime.c | `Runserver.v`, `Listen.v`, `Handle.v` | `getaddrinfo`, `inet_ntop`, the thread library |
| blogc-runserver/main.c | `RunMain.v` | what is printed; SIGPIPE being ignored |
| blogc-make/settings.c, utils.c | `Settings.v`, `Filename.v`, `Ctx.v` | |
| blogc-make/exec.c | `BlogcCmd.v`, `Pipes.v`, `Exec.v` | failing `execv`, `waitpid`; the report of -V |
| blogc-make/exec-native.c | `Native.v` | |
| blogc-make/rules.c | `Rules.v` | what is printed |
| blogc-make/ctx.c, reloader.c | `Ctx.v` | signals, the lock, leaks |
| blogc-make/atom.c | `Atom.v`, `Ctx.v` | |
| blogc-make/httpd.c, reloader.c (threads) | `Httpd.v` | what the server process does; data races |
| blogc-make/main.c | `MakeMain.v` | texts printed, locale |

## Properties

For each property: its status, the theorems, and what limits it. A theorem named
`…_refuted` proves that the claim as stated is false of the code and gives a
witness; `…_partial` proves the claim under the hypotheses its comment names.

* **C01** UTF-8 validation is exact — *proved*: `C01_utf8_exact`. All byte strings; specification is RFC 3629 encoding of scalar values
* **C02** Reading a file does not depend on chunk boundaries — *proved*: `C02_file_exact`, `C02_file_utf8`, `C02_stdin_exact`. Every content and every sequence of read(2) sizes; fread taken by its C standard contract; reading errors are C57
* **C03** The trie behaves as a map from strings to values — *proved*: `C03_trie_is_a_map`, `C03_insert_frame`.
* **C04** Trie size and iteration enumerate exactly the live keys — *proved*: `C04_foreach_and_size`.
* **C05** Inserting into a trie frees each replaced value exactly once — *proved*: `C05_freed_exactly_once`.
* **C06** String builder holds the concatenation and never overflows — *proved*: `C06_string_builder`. Size_t wrap-around of the length not modelled
* **C07** Splitting and joining are inverse — *proved*: `C07_split_join`, `C07_split_pieces`, `C07_join_split`.
* **C08** Replacing a character substitutes every occurrence — *proved*: `C08_replace`.
* **C09** Stripping removes exactly the surrounding white space — *proved*: `C09_strip`, `C09_strip_idempotent`.
* **C10** Shell quoting yields one literal word — *proved*: `C10_quote_one_word`, `C10_quote_in_context`. Against the word splitter of ShSpec.v
* **C11** Sorting is a stable sort that always terminates — *proved*: `C11_sort_any_comparison`, `C11_sort_stable`.
* **C12** Sorting posts orders them by date, newest first — *partial*: `C12_sorted_partial`, `C12_refuted`. False of the code: differences are truncated to 32 bits, so posts 2^31 seconds or more apart may be misordered; proved (stable, both directions) for posts within 68 years of each other.
* **C13** Backslash-aware search stays inside the string — *partial*: `C13_find_in_bounds_refuted`, `C13_find_partial`, `C13_special`, `C13_affixes`. False of the code: a trailing backslash skips the terminating NUL; C13_find_partial characterises exactly when
* **C14** Parse errors point at the offending line and column — *partial*: `C14_line_number_refuted`, `C14_quoted_line_refuted`, `C14_error_position_partial`. False of the code for LF CR pairs and for errors on empty lines; exact otherwise
* **C15** Configuration parsing is total and memory-safe — *proved*: `C15_config_total`. Every buffer; memory exhaustion aborts in bc_malloc and is not modelled
* **C16** Configuration files mean what they say — *proved*: `C16_config_means`, `C16_every_value`, `C16_get_with_default`. Documents of ConfigSpec.v; a repeated section replaces the earlier one (doc_section takes the last)
* **C17** No configuration item is lost at end of file — *partial*: `C17_item_lost_refuted`, `C17_key_lost_refuted`, `C17_last_line_partial`, `C17_add_line_text`. False of the code: one-byte list items, 'key= ' and values ending in an escape are lost at end of file; C17_last_line_partial says exactly which lines survive
* **C18** Datetime parsing accepts exactly the documented formats — *partial*: `C18_formats_refuted`, `C18_formats_partial`, `C18_strftime_partial`, `C18_rejects`. False of the code: trailing garbage after the seconds is accepted; the accepted set is characterised exactly; mktime and strftime are oracles
* **C19** Template parsing is total and memory-safe — *proved*: `C19_template_total`. Template parser model is total: nodes or an error with a position inside the source; no out-of-range read.
* **C20** Accepted templates are well-structured — *partial*: `C20_structure_refuted`, `C20_structure_partial`, `C20_documents_partial`, `C20_names`. False in full: a closing statement cut off by the end of the template counts as closed. Proved: accepted templates are well structured up to exactly that missing closing statement; complete templates are well structured when accepted, and all properly nested ones are accepted.
* **C21** Template text is preserved verbatim — *partial*: `C21_text_refuted`, `C21_text_partial`, `C21_sources_partial`. False in full: a closing cleaner stays pending over following tags, and a final text ending in brace plus one byte is lost. Proved: the exact nodes of every complete template, equal to the documented meaning when cleaners are next to the text.
* **C22** Rendering a parsed template never crashes — *partial*: `C22_render_refuted`, `C22_render_ends`, `C22_render_fuel`, `C22_render_partial`. False in full: an accepted template with an unfinished closing statement makes the renderer walk past the end of the list. Proved: rendering always ends; every accepted template that is well structured renders without undefined behaviour, for all sources and configurations.
* **C23** Rendering follows the block structure — *partial*: `C23_recursive_reading`, `C23_templates_are_programs`, `C23_scoping_refuted`, `C23_listing_once_refuted`, `C23_structure_partial`. The recursive reading is proved with the exact scoping of the code for every properly nested template; the documented scoping is refuted (stale post variables after skipped blocks and in listing_once) and proved for calm templates.
* **C24** Variable resolution order — *partial*: `C24_resolution_refuted`, `C24_resolution_exact`, `C24_source_first`, `C24_global_second`, `C24_undefined`, `C24_size_partial`, `C24_formatted`, `C24_loop_names`. False for FOO_0 and for DATE_FORMATTED_N with a user-defined DATE_FORMATTED; complete resolution proved by C24_resolution_exact.
* **C25** Source files parse to their variables and content — *partial*: `C25_source`, `C25_assignments`, `C25_reserved`, `C25_one_byte_refuted`, `C25_unfinished_refuted`, `C25_overwritten_refuted`, `C25_depth_refuted`. Proved for contents of at least two bytes that are documents of C60 (assignments: for any content the parser accepts). Findings: a content of one byte and an assignment cut off by the end of the file are dropped silently; EXCERPT and RAW_CONTENT can be assigned but are overwritten; TOCTREE_MAXDEPTH is truncated to 32 bits.
* **C26** Source parsing is total and memory-safe — *partial*: `C26_total_partial`, `C26_result_partial`, `C26_nested_partial`, `C26_pairs_partial`, `C26_refuted`. Total except for the failures of the content parser (C29), which it inherits.
* **C27** HTML escaping is complete and faithful — *proved*: `C27_htmlentities`, `C27_injective`.
* **C28** Header anchors are well-formed identifiers — *proved*: `C28_slugify`.
* **C29** Content parsing terminates without undefined behaviour — *partial*: `C29_terminates_refuted`, `C29_use_after_free_refuted`, `C29_bounds_refuted`, `C29_terminates_partial`, `C29_safe_partial`, `C29_result_partial`, `C29_lists_partial`, `C29_nested_partial`, `C29_pairs_partial`, `C29_pairs_result_partial`, `C29_inline_partial`. False of the code in three ways (endless blockquote recursion, use after free in lists, read past the end after a trailing backslash). Proved: termination for texts with one newline byte and for texts with line endings of the same two bytes (CR LF); no undefined behaviour for texts without lists and trailing backslashes; a result for texts without quotes and trailing backslashes, any mix of line endings, whose lists have an item for every line; the same with quotes, at every depth, for texts with one newline byte; inline parsing total unless the text ends with an unfinished escape; documents of C60 (lists and CRLF included) always succeed.
* **C30** Plain paragraphs render as escaped paragraphs — *partial*: `C30_last_line_refuted`, `C30_paragraphs_partial`, `C30_open_partial`. A last line of one byte without newline is lost; proved for every list of markup-free paragraphs whose last line is ended or has at least two bytes, all four line endings.
* **C31** Table of contents is a well-nested list of the headers within depth — *proved*: `C31_toctree`, `C31_nothing`, `C31_append`. Headers of level 0 cannot occur (C31_append); the width given to printf is taken as it is
* **C32** File lists ignore comments and blanks and nothing else — *partial*: `C32_filelist`, `C32_free_exact`, `C32_free_refuted`. The entries are proved; releasing the list is undefined exactly when a line starts with VT or FF before its text (finding). A '#' after blanks also starts a comment, and a line of only VT and FF is an empty entry.
* **C33** FILENAME is the base name without extension — *proved*: `C33_filename`, `C33_variable`. Backslash is a separator too; a file whose only dot comes first has the empty name
* **C34** Pagination partitions the listing — *partial*: `C34_page`, `C34_partition`, `C34_no_size_refuted`, `C34_overflow_refuted`, `C34_rounding_refuted`. Proved for page sizes of at least one, fewer than 2^24 posts and no overflow. False of the code: a page size of zero or less divides by zero and converts infinity or NaN to size_t; (page-1)*size overflows; the page count is rounded to float.
* **C35** Tag filtering keeps exactly the tagged posts — *proved*: `C35_listing`. With FILTER_SORT the dates must lie within 68 years (C12)
* **C36** Listings expose consistent first/last metadata — *proved*: `C35_listing`, `C34_page`, `C36_mixed_rejected`, `C36_sort_needs_dates`, `C36_unreadable_rejected`. First_last_set; with nothing listed the four variables keep their former values
* **C37** Only git transfer commands are accepted by the login shell — *partial*: `C37_accepted`, `C37_shell_partial`, `C37_git_commands`, `C37_refuted`, `C37_slashes_refuted`, `C37_rejected_without_effect`, `C37_served`, `C37_changes`. Exact characterisation of the accepted commands, agreement with POSIX shell quoting, no effect at all of rejected commands, and literal use of the repository name. Refuted as stated: an unterminated last piece is dropped silently, and more than one leading slash can be lost.
* **C38** Repositories stay below the base directory — *partial*: `C38_refuted`, `C38_below_partial`. Refuted: '..' components in the path are accepted. Proved for paths without '..'.
* **C39** The pre-receive hook deploys the pushed branch — *proved*: `C39_deployed`, `C39_branches`. For every list of updates as git writes them, with any unterminated rest.
* **C40** Deployment keeps the site available — *partial*: `C40_deploy_partial`, `C40_refuted`, `C40_failure_refuted`, `C40_same_second_refuted`, `C40_dangling`. Proved at every interruption point: the link is absent or points at a complete build, failed builds leave the site unchanged. Refuted as stated: between unlink and symlink there is no site; a failing symlink call loses the site; a third deployment in the same second deletes the site.
* **C41** URL decoding inverts percent-encoding — *partial*: `C41_decodes`, `C41_roundtrip`, `C41_refuted`. Exact decoding relation and round trip for every choice of unescaped bytes. Refuted as stated: '+' becomes a space, and malformed escapes are kept, not rejected.
* **C42** Content types follow the file extension — *partial*: `C42_extension`, `C42_type`, `C42_other`, `C42_refuted`. Exact for every name; refuted as stated for a bare name that begins with its only dot.
* **C43** The web server never serves files outside the document root — *partial*: `C43_served_partial`, `C43_refuted`, `C43_index_refuted`. Refuted: the document root is compared as a string prefix, so sibling directories are served; indexes may be links leading out. Proved otherwise.
* **C44** Requests are served by at most max_threads threads — *proved*: `C44_threads`, `C44_progress`, `C44_blocked`. Invariant of every schedule; progress; and a witness that a slow request blocks the server although slots are free.
* **C45** blogcfile settings have documented defaults — *partial*: `C45_settings_partial`, `C45_refuted`. Every blogcfile is characterised; the claim fails only for a variable with an empty name, which is accepted.
* **C46** Output file names are predictable and inside the output directory — *partial*: `C46_name`, `C46_distinct_partial`, `C46_slash_refuted`, `C46_index_refuted`, `C46_inside`, `C46_inside_refuted`, `C46_tag_pages`. Names are those documented and distinct up to the three refutations shown: a leading slash in a slug, a page called index, and '..' in a slug.
* **C47** blogc commands carry configuration values literally — *partial*: `C47_words_partial`, `C47_blogcfile_partial`, `C47_refuted`, `C47_program`, `C47_dirname`, `C47_runserver`, `C47_sources`, `C47_value`, `C47_no_value`. Every value is one literal word, except that tags are put between single quotes without quoting; proved for tags without single quotes, refuted with one.
* **C48** Incremental builds never leave stale output — *proved*: `C48_rebuild`. For every set of files and times, both directions.
* **C49** blogc-make fails if any requested rule fails — *partial*: `C49_executor_partial`, `C49_unknown_last`, `C49_forgotten`, `C49_refuted`. Proved when all requested rules exist; an unknown rule followed by one that succeeds gives 0.
* **C50** Watch mode recovers from a broken blogcfile — *partial*: `C50_reload_partial`, `C50_stuck`, `C50_refuted`. A changed and valid blogcfile is taken over (C50_reload_partial), but after one that is not valid nothing is built any more whatever happens (C50_stuck, C50_refuted): the claim is false of the code.
* **C51** Running blogc from blogc-make cannot deadlock — *partial*: `C51_collected`, `C51_ends`, `C51_partial`, `C51_refuted`. Proved for every schedule and pipe capacity if the command reads its input before it writes, or the input fits into the pipe, and its errors fit into the pipe; false for other commands (C51_refuted).
* **C52** clean only removes files inside the output directory — *partial*: `C52_rm`, `C52_clean_partial`, `C52_refuted`, `C52_source_refuted`. Proved for every site, tree and state when OUTPUT_DIR does not end with a slash; output names with '..' leave the output directory (C46_inside_refuted). With OUTPUT_DIR=a/b/ clean removes the directory a (C52_refuted); with OUTPUT_DIR=. it removes the sources of copied files (C52_source_refuted).
* **C53** Copying reproduces the file exactly — *partial*: `C53_copy_partial`, `C53_ends`, `C53_directories`, `C53_refuted`, `C53_lost`, `C53_same_refuted`. Proved for every content and every split of reads and writes when no read fails and source and destination are different files; a failing read gives a truncated copy and 0 (C53_refuted), and a file copied to itself is emptied (C53_lost).
* **C54** Rule arguments parse to key-value pairs — *proved*: `C54_arguments`, `C54_mapping`, `C54_executed`. Every argument string: understood exactly if of the documented form.
* **C55** Command-line variables must have valid names — *partial*: `C55_define_partial`, `C55_refuted`, `C55_status_refuted`. Every -D argument is characterised; an empty name is accepted, and a value that is not UTF-8 ends the run with status 0.
* **C56** Reordering options compose as documented — *partial*: `C56_listing_partial`, `C56_page_partial`, `C56_global_refuted`. For every rule that lists posts and every setting, with and without pages, from posts_ordering to the posts loaded; sorted posts must lie within 68 years of each other (C12). A blogcfile whose [global] section sets FILTER_SORT or FILTER_REVERSE itself overrides the order: shown by C56_global_refuted.
* **C57** Reading a file always terminates — *partial*: `C57_read_terminates_refuted`. False of the code: a read error (path is a directory) loops for ever; for readable files termination is C02
* **C58** Inline markup means what the manual says — *partial*: `C58_inline`, `C58_lost_refuted`, `C58_twice_refuted`. For every text with a meaning in InlineSpec.v, which includes marks that are not closed, brackets without an address, and links and images cut off by the end of the text. No meaning is given to links cut off by the end of an emphasis (what follows is shown twice) and to two marks or brackets at the very end of a text (they are lost): findings.
* **C59** Content output is well-formed, escaped HTML — *partial*: `C59_output`, `C59_attributes_refuted`. The grammar is proved for every text; link and image attribute values are not escaped (finding).
* **C60** Documents render block by block — *partial*: `C60_documents`, `C60_numbered_line`, `C60_unended_refuted`, `C60_unended_block_refuted`, `C60_lazy_refuted`, `C60_empty_quote_refuted`, `C60_empty_item_refuted`, `C60_dots_refuted`, `C60_dots_lost_refuted`. Proved for the documents of DocSpec.v, paragraphs may begin with markup, numbers, hashes or dots; blocks separated by blank lines; the last line ended, or not ended and long enough (two bytes in a paragraph, HTML block or list, one in a quote or code block, two after the prefix when it is the only line of the block). Beyond them the claim is false: a short last line without a line ending is lost; a quote or code block whose last line lacks the prefix runs into the next paragraph; a line of full stops followed by a line of one byte is lost or repeats the rest of the document.
* **C61** Every request line is answered — *partial*: `C61_crashes_partial`, `C61_refuted`, `C61_answers`. Every request line is characterised; exactly those with an empty target crash the server (strlen of NULL).
* **C62** Responses are well-formed HTTP messages — *partial*: `C62_errors_known`, `C62_message`, `C62_refuted`. Proved for errors and files; refuted for redirections, which repeat CR LF of the decoded path.
* **C63** The request line does not depend on segmentation — *partial*: `C63_line_partial`, `C63_upto_end`, `C63_refuted`. Proved when every read but the last fills the buffer; a short read cuts the line.
* **C64** A failed build leaves the output alone — *partial*: `C64_touched`, `C64_failed`, `C64_succeeded`, `C64_stored_refuted`, `C64_empty_variable_refuted`. Proved but for 'stored': errors of fprintf and fclose are not looked at. -p with an empty name is undefined.
* **C65** blogc-make's commands do what the rule meant — *partial*: `C65_end_to_end_partial`, `C65_variable_partial`. Proved for blogcfiles in UTF-8 with tags without single quotes and for one-line source paths.
* **C66** Building twice builds once — *proved*: `C66_nothing_to_do`, `C66_second_run`, `C66_dev_refuted`. For every site; blogc's answers about the last page must not change. C66_dev_refuted records that -D (development) is not among the things compared.
* **C67** A successful build leaves every file up to date, and touches no file that was — *proved*: `C67_rule`, `C67_up_to_date`, `C67_untouched`. For every site whose inputs are readable, and tools that write with the current time; what is assumed of the tools is assumed only of the commands of the site, in worlds that the caller chooses (`good`).
* **C68** Every output file is made from its own recipe — *proved*: `C68_commands`, `C68_tag_page`. As an invariant of the world under intended commands only.
* **C69** clean removes all that was built — *partial*: `C69_cleaned`, `C69_refuted`. Proved for every site when clean returns 0. C69_refuted: a file named twice makes clean fail and leave the rest.
* **C70** Watching a site brings every change into it — *partial*: `C70_watch`, `C70_older_refuted`, `C70_added_refuted`. Proved for every history in which files do not disappear or get older. A file replaced by an older one (C70_older_refuted) and a file added to a copied directory (C70_added_refuted) are not noticed.
* **C71** blogc-make looks at exactly the files the blogcfile names — *proved*: `C71_context`, `C71_site_ok`, `C71_ends`. For every disk whose names have bounded length.
* **C72** The generated feed lists the posts and names its own address — *partial*: `C72_feed_partial`, `C72_address_refuted`, `C72_format_refuted`. Proved for settings without '{' and '%' and with a blog_prefix that is not empty, for every listing and tag. False for others: an empty blog_prefix gives a wrong address (C72_address_refuted), one with a conversion is undefined behaviour (C72_format_refuted).
* **C73** The entries of the feed link to the pages of the posts — *partial*: `C73_links_partial`, `C73_refuted`. Proved for slugs without a slash and ordinary source extensions; the entry of a post in a subdirectory is linked to a page that does not exist (C73_refuted).
* **C74** The generated feed is well-formed XML — *partial*: `C74_wellformed`, `C74_refuted`. Proved for values without markup; the variables are not escaped, so a title with an ampersand breaks the feed (C74_refuted).
* **C75** A push is only served with the hooks in place — *proved*: `C75_hooks`. For every command and every outcome of the calls.
* **C76** blogc-make runserver ends when its server ends — *partial*: `C76_stops_partial`, `C76_refuted`. Proved for every interleaving once the main thread is in its loop; if the server fails before that, bm_reloader_stop is undone by 'running = true' and blogc-make goes on for ever without a server (C76_refuted). That the loop is left at its next test is what is proved; that the scheduler lets it get there is not expressed.
* **C77** blogc-make runserver never waits for itself — *partial*: `C77_live_partial`, `C77_interrupted`, `C77_returns`, `C77_wait`, `C77_refuted`. Proved for every interleaving without signals, and for ^C handled while the main thread is in its loop; the wait for the server ends (C77_wait); ^C while the main thread holds mutex_running waits for ever (C77_refuted).
* **C78** blogc-make does what its command line asks — *partial*: `C78_line_partial`, `C78_ends`, `C78_ignored`, `C78_refuted`. Proved for every documented command line and for every unknown option; but a last -f without a name is ignored (C78_refuted) and so is what follows -D or -V in the same word (C78_ignored).
* **C79** A run of blogc-make that returns 0 leaves the site up to date — *proved*: `C79_built`. For every run: combines the command line (C78), the context (C71) and building (C67). The removal of the temporary template is part of C78_line_partial.
* **C80** Removing a build removes that build only — *partial*: `C80_removed_partial`, `C80_other`, `C80_refuted`, `C80_dangling`, `C80_rejected_refuted`. Proved for directories without symbolic links below them; as stat follows links, the files of a directory outside are removed through a link (C80_refuted), a dangling link stops the removal (C80_dangling), and then git is told that the push failed although the new site is published (C80_rejected_refuted).
* **C81** A pushed site is published where the settings say — *partial*: `C81_place`, `C81_default`, `C81_other`, `C81_error_refuted`. Proved for every well-formed settings file with at most one section for the repository; an error anywhere in the file moves the site to htdocs (C81_error_refuted).
* **C82** A push is mirrored, and a failing mirror does not fail it — *partial*: `C82_mirror`, `C82_disabled`, `C82_command_partial`, `C82_refuted`. Which mirror, how often and the result are proved for all settings; that git gets the value as one argument only for values without bytes special to the shell, as it is not quoted (C82_refuted).
* **C83** A login can do nothing but git transfers — *proved*: `C83_login`, `C83_hooks`. For every command line and environment; what a valid command does is C37 and C38.
* **C84** Rebuilding by hand builds the commit that is published — *proved*: `C84_rebuild`, `C84_unknown`, `C84_fails`. For every run that changed the link, if the link is still resolved to a directory of that name.
* **C85** The build commands get the commit and the output directory literally — *partial*: `C85_build_partial`, `C85_refuted`, `C85_home_refuted`. Proved for builds directories without dollar signs, backquotes, quotes, backslashes; a dollar sign is expanded (C85_refuted), and without HOME a NULL pointer is printed (C85_home_refuted).
* **C86** A variable keeps its value in a page, and the user's value wins over the system's — *partial*: `C86_stable_partial`, `C86_user_partial`, `C86_value`, `C86_refuted`. Proved for all variables but the two of rusage, and for those when the configuration sets both or none; setting one of them is undone by the use of the other (C86_refuted).
* **C87** The command line of blogc-runserver decides what is served where — *partial*: `C87_line_partial`, `C87_ends`, `C87_refuted`. Proved for every command line of the documented form and for every -h, -v or unknown option; but text after a number is ignored, negative numbers wrap around, and a last -t, -p or -m without a value is ignored or dereferences NULL (C87_refuted).
* **C88** blogc writes valid UTF-8 — *partial*: `C88_utf8_partial`, `C88_run_partial`, `C88_refuted`. Proved for every run in which no printed variable asks for a number of bytes (NAME_10), if strftime and the operating system answer in UTF-8; a number of bytes may cut a character (C88_refuted).
* **C89** Every file of a built site holds what it should — *partial*: `C89_partial`, `C89_fresh`, `C89_own`, `C89_retry_refuted`. Proved for every site and world under the stated assumptions on the tools: blogc does what main.c does or dies before it touches a file, a copy is all or nothing (a copy that stops half-way and is not repaired by the next run is C89_retry_refuted), each path is a file of its own, clocks do not go back, blogc answers about the last page are stable. -D is not compared (C66_dev_refuted).
* **C90** blogc depends only on the files it is told of — *proved*: `C90_told`. For every command line.
* **C91** However a site is edited and built, a successful run brings it up to date — *partial*: `C91_life_partial`, `C91_history_partial`, `C91_same_time_refuted`. By induction over the history of edits and runs, failing runs and broken posts included; what blogc says about the last page is derived, not assumed (C91_life_partial). Missing: what C89 misses for each run; no two rules may make the same file (distinct). The condition on the times is needed: C91_same_time_refuted.
* **C92** A site has as many pages of each listing as its posts fill — *partial*: `C92_answers`, `C92_pages`, `C92_refuted`. Proved if asking blogc works: fewer than 2^24 posts, all dated or none, posts_per_page at least 1, no FILTER_* in [global], tags non-empty. If blogc cannot be asked, the answer is taken as no page and the build succeeds without them (C92_refuted).
* **C93** The pages of a listing, taken together, show every post once — *partial*: `C93_partial`. Composition of C89 with the loader's pages. Missing: files shared by two rules, what C89 and C92 exclude.
* **C94** blogc -p tells what a template would show — *proved*: `C94_value`, `C94_shown`. For every run that ends and does not hit the undefined behaviour of an empty name (C64_empty_variable_refuted).
* **C95** What blogc-make leaves on the disk, from its command line — *partial*: `C95_make_partial`. Composition of C71, C78, C79, C89 and C92 in one statement about main(). Missing: what C89 misses (tools that fail half-way), the rules that do not build (clean, runserver, watch); names that are not plain, posts_per_page below 1.
* **C96** The time and memory that a page shows — *partial*: `C96_usage_partial`, `C96_nearest_refuted`. Proved for every time and size below 2^51, in the arithmetic of float and double; the digits are the nearest while the number fits a float (2^24: 16.7 seconds, 16 GB), and off by at most one part in 2^24 beyond, where the claim is false (C96_nearest_refuted). That getrusage does not fail is assumed; on systems where long and int differ in how they are passed, %d with a long is undefined.
* **C97** Telling whether blogc runs inside docker — *partial*: `C97_docker_partial`, `C97_again_refuted`. The page shows the right answer for every content of the file; the function itself, asked again, always says no, as a local variable shadows the static one (C97_again_refuted). blogc asks again only if the answer was no.
* **C98** What blogc -d says about a template — *proved*: `C98_total`, `C98_report`. That nothing is missing is proved for every accepted source; the records for every accepted list of texts, variables and statements that does not contain NUL and whose last text is kept (C21). A text is reported without the blanks the cleaners take.
* **C99** What a command of blogc-make leaves behind — *partial*: `C99_descriptors`, `C99_result`, `C99_ends`, `C99_waited_partial`, `C99_waited_refuted`. Descriptors and result for every combination of failing calls. False of the code: after a failed write or read the command is not waited for (C99_waited_refuted); otherwise it is, exactly when there is no error (C99_waited_partial). A write is assumed to write all or fail, waitpid to succeed.
* **C100** What blogc-make says when blogc cannot be asked — *partial*: `C100_says_partial`, `C100_silent`, `C100_undefined_exact`, `C100_refuted`. False of the code: if blogc ends with an error and has written nothing, as when it is killed, a NULL pointer is printed (C100_refuted); that is the only case (C100_undefined_exact).
* **C101** A post as it is loaded from its file — *proved*: `C101_post`. For the documents of C60 and contents of at least two bytes (C25); a depth that is not an integer that fits an int is outside the claim (C25_depth_refuted).
* **C102** What the user is told about an error — *proved*: `C102_report`, `C102_kinds`, `C102_place`. Positions under the hypotheses of C14 (no LF CR pair, the line not empty); program names without a colon, as all are. The numbers are printed with %d although they are size_t (not modelled).
* **C103** The address on which blogc-runserver listens — *partial*: `C103_address`, `C103_one_socket`, `C103_url`, `C103_texts_partial`, `C103_texts_refuted`, `C103_listen_refuted`. The first address that can be bound, the sockets and the URL for every list of addresses. False of the code: if listen fails, the addresses that follow are not tried (C103_listen_refuted); the text of an address is lost if socket or setsockopt fails for it (C103_texts_refuted), and only then (C103_texts_partial).
* **C104** A request is answered, logged and forgotten — *partial*: `C104_request`, `C104_undefined`, `C104_empty_refuted`. For every line that is not empty and has a target; the response is that of C61 and C62. False of the code: the memory of an empty line is lost (C104_empty_refuted). A write is taken to write everything, as the code only warns otherwise.
* **C105** The command line of blogc — *partial*: `C105_line`, `C105_stops`, `C105_refuted`. For every command line of the manual; what follows the letter of a flag is ignored and so is a last option without its value (C105_refuted). What the options then do is C64.

## Findings

Each is a consequence of the model; where a theorem records it, its name is
given. The rest are documented in comments beside the definitions.

### Memory safety and crashes

* A trailing backslash makes `bc_str_find` skip the terminating NUL and read on
  (`C13`); content ending in a backslash reads past the end
  (`C29`: `\` at the end of a line of markup).
* Content parser: nested block quotes with mixed line endings recurse for ever;
  list items read lines after they were freed (`C29`).
* Template: a block closed by a statement that the end of the file cuts off is
  accepted, and the renderer then walks off the list (`C20`, `C22`).
* File list: releasing the list is undefined when a line starts with VT or FF
  (`C32`).
* runserver: a request line with an empty target passes NULL to `strlen`
  (`C61`).
* loader: FILTER_PER_PAGE of 0 or less with FILTER_PAGE converts infinity or NaN
  to `size_t`; the page product can overflow (`C34`).
* blogc: `-p ""` underflows (`C64`). Reading a directory never ends (`C57`).

### Security

* runserver: the document root is compared as a string prefix, so siblings are
  served, and index links lead out (`C43`); CR LF in a decoded path is repeated
  in the Location header (`C62`).
* git receiver: `..` leaves the repositories directory (`C38`).
* blogc-make: tags stand between single quotes without quoting, so a tag with a
  quote injects a command (`C47`).
* Content: link and image attributes are not escaped (`C59`).

### Lost or wrong data

* git receiver: between `unlink` and `symlink` there is no site; if `symlink`
  fails, site and build are lost; a third deployment in the same second deletes
  the published site with status 0 (`C40`). Deleting a branch counts as an
  update.
* copy: a read error ends the copy with status 0 (`C53_refuted`); a file copied
  to itself, with OUTPUT_DIR=., is emptied (`C53_lost`, `C53_same_refuted`).
* clean: OUTPUT_DIR with a trailing slash removes empty directories above it
  (`C52_refuted`); OUTPUT_DIR=. deletes the copied sources
  (`C52_source_refuted`); an output named twice makes clean stop (`C69_refuted`).
* Sorting truncates differences of dates to 32 bits (`C12`).
* Source and config parsers drop unterminated last lines of one byte, single
  list items, `key= ` (`C17`, `C25`, `C30`).
* Content: `# ` followed by CR LF takes the rest of the document as the header;
  the stale end of an excerpt duplicates text.
* Inline markup: `**`, ` `` ` or `[[` at the very end of a text are dropped
  (`C58_lost_refuted`); a link without an address within an emphasis makes the
  rest of the text appear twice, as in `*see [1]* and` (`C58_twice_refuted`).
* Errors of `fprintf` and `fclose` are ignored when the page is written (`C64`).

### blogc-make

* Watch mode: an invalid blogcfile sets the context to NULL for good; fixing the
  file does not help (`C50_stuck`, `C50_refuted`). The old context and its
  temporary feed template leak.
* Watch mode: a file replaced by an older one, and a file added to a copied
  directory, are not noticed (`C70_older_refuted`, `C70_added_refuted`).
* bm_exec_command writes all input before it reads any output, and reads all
  output before it reads errors: commands that write more than a pipe holds
  stop it for ever (`C51_refuted`). A command that leaves input unread ends
  blogc-make by SIGPIPE (`C51_collected`).
* An unknown rule followed by one that succeeds exits with 0 (`C49`); rule
  arguments with a trailing comma are all discarded (`C54`).
* [global] FILTER_SORT and FILTER_REVERSE override the configured order
  (`C56_global_refuted`); switching -D does not rebuild anything
  (`C66_dev_refuted`).
* File names: `a` and `/a` collide, a page `index` collides with the listing,
  `..` in a slug leaves the output directory (`C46`).
* A variable with an empty name is accepted, in the blogcfile (`C45_refuted`)
  and with -D (`C55`); -D with invalid UTF-8 exits with 0.
* Copying the empty name `""` lists the blogcfile's directory but copies the
  files of those names in the root directory (from `bm_filectx_new_r`).
* The generated feed: `blog_prefix` is used as a printf format
  (`C72_format_refuted`); an empty one gives the address `//atom.xml`
  (`C72_address_refuted`); posts in subdirectories get entries that link to
  pages that do not exist (`C73_refuted`); titles and names are not escaped, so
  `AT&T` makes the feed invalid XML (`C74_refuted`), and so would `]]>` in a post.
* OUTPUT_DIR set to the empty string makes all outputs absolute names (from
  `bm_ctx_new`).
* runserver: a server that fails before the main loop starts is not noticed, as
  `running = true` overwrites the stop (`C76_refuted`); ^C while the main thread
  holds `mutex_running` stops the program for ever (`C77_refuted`). The thread of
  the server reads the context (host, port, output directory) without a lock
  while the main thread may replace it, and `running` is tested without the lock
  (from `httpd.c` and `reloader.c`; data races are outside the model).
* blogc-make's command line: a last `-f` without a name is ignored
  (`C78_refuted`), `-DV` means `-D` (`C78_ignored`), and a repeated `-f` leaks.
* Removing a build follows symbolic links: a link in the site to a directory
  outside makes the receiver delete the files of that directory
  (`C80_refuted`); a dangling link makes it exit with 2 after the new site is
  published, so git rejects the push (`C80_dangling`, `C80_rejected_refuted`).
* blogc-git-receiver: an error in the settings of any repository publishes all
  sites in `htdocs` (`C81_error_refuted`); the mirror is not quoted for the shell
  (`C82_refuted`), nor are `$` and backquotes in the builds directory
  (`C85_refuted`); without HOME `%s` is given NULL (`C85_home_refuted`). Deleting
  the branch master is refused, as the hook tries to archive the commit 000…0.
* `-D BLOGC_RUSAGE_MEMORY=…` is overwritten by a use of BLOGC_RUSAGE_CPU_TIME in
  the template (`C86_refuted`). `blogc_rusage_format_cpu_time` and `_memory` give
  long arguments to `%d` (undefined by the C standard; not modelled).
* blogc-runserver's command line: `-m 5x` and `-m -18446744073709551615` start a
  server, a last `-t` resets the host, a last `-m` dereferences NULL
  (`C87_refuted`).
* `{{ TITLE_1 }}` cuts a character of more than one byte, so the page is not
  valid UTF-8 (`C88_refuted`); all other output of blogc is (`C88_run_partial`).
* A copy that stops half-way (disk full) is reported, but the half file has a new
  time: the next run reports success and leaves it (`C89_retry_refuted`; the same
  holds for pages, as blogc does not check what it writes, `C64_stored_refuted`).
* A post changed while the clock still shows the time its page was written is not
  rebuilt; the run reports success (`C91_same_time_refuted`).
* If blogc fails when blogc-make asks it for LAST_PAGE, this is taken as no page:
  no page of the listing is built and the run reports success (`C92_refuted`).
* blogc's content: the last line of a file that does not end in a newline is lost
  if it is short: one byte of a paragraph, or a header, quote or item of one byte
  (`C60_unended_refuted`, `C60_unended_block_refuted`). A quote or code block whose
  last line lacks the prefix runs into the next paragraph (`C60_lazy_refuted`). A
  quote that begins with an empty quoted line keeps the marks of its other lines and
  so shows a quote in a quote (`C60_empty_quote_refuted`). A mark alone on a line: the
  blank line after it is swallowed, and `*` alone is a list with CRLF endings but a
  paragraph with LF (`C60_empty_item_refuted`): in CONTENT_UNORDERED_LIST_OR_HORIZONTAL_RULE
  the current byte is then the second of the two. A
  paragraph `...` / `a` (full stops, then one byte) is lost at the start of the
  content; after another block it shows the whole rest of the document, which then
  appears again (`C60_dots_refuted`, `C60_dots_lost_refuted`): `end` is stale or
  less than `start` in content-parser.c, CONTENT_EXCERPT_END.
* blogc_sysinfo_get_inside_docker keeps its answer in a local variable with the name
  of the static one: asked again it says no (`C97_again_refuted`). Times of more than
  16.7 seconds go through a float and are not shown to the nearest millisecond
  (`C96_nearest_refuted`). rusage.c 53 and 64 print a long with `%d`.
* blogc-make asks blogc for a variable, and blogc ends with an error but without a word
  (killed, for instance): exec.c 415 prints a NULL string (`C100_refuted`). When a read
  or write to a command fails, the command is not waited for (`C99_waited_refuted`).
* blogc-runserver: if `listen` fails for the first address that can be bound (the port is
  in use by another server), the addresses that follow are not tried
  (`C103_listen_refuted`); httpd.c 292 and 307 lose the text of an address
  (`C103_texts_refuted`).
  handle_request does not free the line of an empty request (`C104_empty_refuted`).
* blogc takes `-list` for `-l` and ignores a last `-t` without a value (`C105_refuted`).
