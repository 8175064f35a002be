{
 "claims": [
  {
   "property": "C01",
   "status": "proved",
   "theorems": [
    "C01_utf8_exact"
   ],
   "note": "all byte strings; specification is RFC 3629 encoding of scalar values"
  },
  {
   "property": "C02",
   "status": "proved",
   "theorems": [
    "C02_file_exact",
    "C02_file_utf8",
    "C02_stdin_exact"
   ],
   "note": "every content and every sequence of read(2) sizes; fread taken by its C standard contract; reading errors are C57"
  },
  {
   "property": "C03",
   "status": "proved",
   "theorems": [
    "C03_trie_is_a_map",
    "C03_insert_frame"
   ],
   "note": ""
  },
  {
   "property": "C04",
   "status": "proved",
   "theorems": [
    "C04_foreach_and_size"
   ],
   "note": ""
  },
  {
   "property": "C05",
   "status": "proved",
   "theorems": [
    "C05_freed_exactly_once"
   ],
   "note": ""
  },
  {
   "property": "C06",
   "status": "proved",
   "theorems": [
    "C06_string_builder"
   ],
   "note": "size_t wrap-around of the length not modelled"
  },
  {
   "property": "C07",
   "status": "proved",
   "theorems": [
    "C07_split_join",
    "C07_split_pieces",
    "C07_join_split"
   ],
   "note": ""
  },
  {
   "property": "C08",
   "status": "proved",
   "theorems": [
    "C08_replace"
   ],
   "note": ""
  },
  {
   "property": "C09",
   "status": "proved",
   "theorems": [
    "C09_strip",
    "C09_strip_idempotent"
   ],
   "note": ""
  },
  {
   "property": "C10",
   "status": "proved",
   "theorems": [
    "C10_quote_one_word",
    "C10_quote_in_context"
   ],
   "note": "against the word splitter of ShSpec.v"
  },
  {
   "property": "C11",
   "status": "proved",
   "theorems": [
    "C11_sort_any_comparison",
    "C11_sort_stable"
   ],
   "note": ""
  },
  {
   "property": "C12",
   "status": "partial",
   "theorems": [
    "C12_sorted_partial",
    "C12_refuted"
   ],
   "note": "False of the code: differences are truncated to 32 bits, so posts 2^31 seconds or more apart may be misordered; proved (stable, both directions) for posts within 68 years of each other."
  },
  {
   "property": "C13",
   "status": "partial",
   "theorems": [
    "C13_find_in_bounds_refuted",
    "C13_find_partial",
    "C13_special",
    "C13_affixes"
   ],
   "note": "false of the code: a trailing backslash skips the terminating NUL; C13_find_partial characterises exactly when"
  },
  {
   "property": "C14",
   "status": "partial",
   "theorems": [
    "C14_line_number_refuted",
    "C14_quoted_line_refuted",
    "C14_error_position_partial"
   ],
   "note": "false of the code for LF CR pairs and for errors on empty lines; exact otherwise"
  },
  {
   "property": "C15",
   "status": "proved",
   "theorems": [
    "C15_config_total"
   ],
   "note": "every buffer; memory exhaustion aborts in bc_malloc and is not modelled"
  },
  {
   "property": "C16",
   "status": "proved",
   "theorems": [
    "C16_config_means",
    "C16_every_value",
    "C16_get_with_default"
   ],
   "note": "documents of ConfigSpec.v; a repeated section replaces the earlier one (doc_section takes the last)"
  },
  {
   "property": "C17",
   "status": "partial",
   "theorems": [
    "C17_item_lost_refuted",
    "C17_key_lost_refuted",
    "C17_last_line_partial",
    "C17_add_line_text"
   ],
   "note": "false of the code: one-byte list items, 'key= ' and values ending in an escape are lost at end of file; C17_last_line_partial says exactly which lines survive"
  },
  {
   "property": "C18",
   "status": "partial",
   "theorems": [
    "C18_formats_refuted",
    "C18_formats_partial",
    "C18_strftime_partial",
    "C18_rejects"
   ],
   "note": "false of the code: trailing garbage after the seconds is accepted; the accepted set is characterised exactly; mktime and strftime are oracles"
  },
  {
   "property": "C19",
   "status": "proved",
   "theorems": [
    "C19_template_total"
   ],
   "note": "Template parser model is total: nodes or an error with a position inside the source; no out-of-range read."
  },
  {
   "property": "C20",
   "status": "partial",
   "theorems": [
    "C20_structure_refuted",
    "C20_structure_partial",
    "C20_documents_partial",
    "C20_names"
   ],
   "note": "False in full: a closing statement cut off by the end of the template counts as closed. Proved: accepted templates are well structured up to exactly that missing closing statement; complete templates are well structured when accepted, and all properly nested ones are accepted."
  },
  {
   "property": "C21",
   "status": "partial",
   "theorems": [
    "C21_text_refuted",
    "C21_text_partial",
    "C21_sources_partial"
   ],
   "note": "False in full: a closing cleaner stays pending over following tags, and a final text ending in brace plus one byte is lost. Proved: the exact nodes of every complete template, equal to the documented meaning when cleaners are next to the text."
  },
  {
   "property": "C22",
   "status": "partial",
   "theorems": [
    "C22_render_refuted",
    "C22_render_ends",
    "C22_render_fuel",
    "C22_render_partial"
   ],
   "note": "False in full: an accepted template with an unfinished closing statement makes the renderer walk past the end of the list. Proved: rendering always ends; every accepted template that is well structured renders without undefined behaviour, for all sources and configurations."
  },
  {
   "property": "C23",
   "status": "partial",
   "theorems": [
    "C23_recursive_reading",
    "C23_templates_are_programs",
    "C23_scoping_refuted",
    "C23_listing_once_refuted",
    "C23_structure_partial"
   ],
   "note": "The recursive reading is proved with the exact scoping of the code for every properly nested template; the documented scoping is refuted (stale post variables after skipped blocks and in listing_once) and proved for calm templates."
  },
  {
   "property": "C24",
   "status": "partial",
   "theorems": [
    "C24_resolution_refuted",
    "C24_resolution_exact",
    "C24_source_first",
    "C24_global_second",
    "C24_undefined",
    "C24_size_partial",
    "C24_formatted",
    "C24_loop_names"
   ],
   "note": "False for FOO_0 and for DATE_FORMATTED_N with a user-defined DATE_FORMATTED; complete resolution proved by C24_resolution_exact."
  },
  {
   "property": "C25",
   "status": "partial",
   "theorems": [
    "C25_source",
    "C25_assignments",
    "C25_reserved",
    "C25_one_byte_refuted",
    "C25_unfinished_refuted",
    "C25_overwritten_refuted",
    "C25_depth_refuted"
   ],
   "note": "Proved for contents of at least two bytes that are documents of C60 (assignments: for any content the parser accepts). Findings: a content of one byte and an assignment cut off by the end of the file are dropped silently; EXCERPT and RAW_CONTENT can be assigned but are overwritten; TOCTREE_MAXDEPTH is truncated to 32 bits."
  },
  {
   "property": "C26",
   "status": "partial",
   "theorems": [
    "C26_total_partial",
    "C26_result_partial",
    "C26_nested_partial",
    "C26_pairs_partial",
    "C26_refuted"
   ],
   "note": "Total except for the failures of the content parser (C29), which it inherits."
  },
  {
   "property": "C27",
   "status": "proved",
   "theorems": [
    "C27_htmlentities",
    "C27_injective"
   ],
   "note": ""
  },
  {
   "property": "C28",
   "status": "proved",
   "theorems": [
    "C28_slugify"
   ],
   "note": ""
  },
  {
   "property": "C29",
   "status": "partial",
   "theorems": [
    "C29_terminates_refuted",
    "C29_use_after_free_refuted",
    "C29_bounds_refuted",
    "C29_terminates_partial",
    "C29_safe_partial",
    "C29_result_partial",
    "C29_lists_partial",
    "C29_nested_partial",
    "C29_pairs_partial",
    "C29_pairs_result_partial",
    "C29_inline_partial"
   ],
   "note": "False of the code in three ways (endless blockquote recursion, use after free in lists, read past the end after a trailing backslash). Proved: termination for texts with one newline byte and for texts with line endings of the same two bytes (CR LF); no undefined behaviour for texts without lists and trailing backslashes; a result for texts without quotes and trailing backslashes, any mix of line endings, whose lists have an item for every line; the same with quotes, at every depth, for texts with one newline byte; inline parsing total unless the text ends with an unfinished escape; documents of C60 (lists and CRLF included) always succeed."
  },
  {
   "property": "C30",
   "status": "partial",
   "theorems": [
    "C30_last_line_refuted",
    "C30_paragraphs_partial",
    "C30_open_partial"
   ],
   "note": "A last line of one byte without newline is lost; proved for every list of markup-free paragraphs whose last line is ended or has at least two bytes, all four line endings."
  },
  {
   "property": "C31",
   "status": "proved",
   "theorems": [
    "C31_toctree",
    "C31_nothing",
    "C31_append"
   ],
   "note": "headers of level 0 cannot occur (C31_append); the width given to printf is taken as it is"
  },
  {
   "property": "C32",
   "status": "partial",
   "theorems": [
    "C32_filelist",
    "C32_free_exact",
    "C32_free_refuted"
   ],
   "note": "The entries are proved; releasing the list is undefined exactly when a line starts with VT or FF before its text (finding). A '#' after blanks also starts a comment, and a line of only VT and FF is an empty entry."
  },
  {
   "property": "C33",
   "status": "proved",
   "theorems": [
    "C33_filename",
    "C33_variable"
   ],
   "note": "backslash is a separator too; a file whose only dot comes first has the empty name"
  },
  {
   "property": "C34",
   "status": "partial",
   "theorems": [
    "C34_page",
    "C34_partition",
    "C34_no_size_refuted",
    "C34_overflow_refuted",
    "C34_rounding_refuted"
   ],
   "note": "Proved for page sizes of at least one, fewer than 2^24 posts and no overflow. False of the code: a page size of zero or less divides by zero and converts infinity or NaN to size_t; (page-1)*size overflows; the page count is rounded to float."
  },
  {
   "property": "C35",
   "status": "proved",
   "theorems": [
    "C35_listing"
   ],
   "note": "with FILTER_SORT the dates must lie within 68 years (C12)"
  },
  {
   "property": "C36",
   "status": "proved",
   "theorems": [
    "C35_listing",
    "C34_page",
    "C36_mixed_rejected",
    "C36_sort_needs_dates",
    "C36_unreadable_rejected"
   ],
   "note": "first_last_set; with nothing listed the four variables keep their former values"
  },
  {
   "property": "C37",
   "status": "partial",
   "theorems": [
    "C37_accepted",
    "C37_shell_partial",
    "C37_git_commands",
    "C37_refuted",
    "C37_slashes_refuted",
    "C37_rejected_without_effect",
    "C37_served",
    "C37_changes"
   ],
   "note": "Exact characterisation of the accepted commands, agreement with POSIX shell quoting, no effect at all of rejected commands, and literal use of the repository name. Refuted as stated: an unterminated last piece is dropped silently, and more than one leading slash can be lost."
  },
  {
   "property": "C38",
   "status": "partial",
   "theorems": [
    "C38_refuted",
    "C38_below_partial"
   ],
   "note": "Refuted: '..' components in the path are accepted. Proved for paths without '..'."
  },
  {
   "property": "C39",
   "status": "proved",
   "theorems": [
    "C39_deployed",
    "C39_branches"
   ],
   "note": "For every list of updates as git writes them, with any unterminated rest."
  },
  {
   "property": "C40",
   "status": "partial",
   "theorems": [
    "C40_deploy_partial",
    "C40_refuted",
    "C40_failure_refuted",
    "C40_same_second_refuted",
    "C40_dangling"
   ],
   "note": "Proved at every interruption point: the link is absent or points at a complete build, failed builds leave the site unchanged. Refuted as stated: between unlink and symlink there is no site; a failing symlink call loses the site; a third deployment in the same second deletes the site."
  },
  {
   "property": "C41",
   "status": "partial",
   "theorems": [
    "C41_decodes",
    "C41_roundtrip",
    "C41_refuted"
   ],
   "note": "Exact decoding relation and round trip for every choice of unescaped bytes. Refuted as stated: '+' becomes a space, and malformed escapes are kept, not rejected."
  },
  {
   "property": "C42",
   "status": "partial",
   "theorems": [
    "C42_extension",
    "C42_type",
    "C42_other",
    "C42_refuted"
   ],
   "note": "Exact for every name; refuted as stated for a bare name that begins with its only dot."
  },
  {
   "property": "C43",
   "status": "partial",
   "theorems": [
    "C43_served_partial",
    "C43_refuted",
    "C43_index_refuted"
   ],
   "note": "Refuted: the document root is compared as a string prefix, so sibling directories are served; indexes may be links leading out. Proved otherwise."
  },
  {
   "property": "C44",
   "status": "proved",
   "theorems": [
    "C44_threads",
    "C44_progress",
    "C44_blocked"
   ],
   "note": "Invariant of every schedule; progress; and a witness that a slow request blocks the server although slots are free."
  },
  {
   "property": "C45",
   "status": "partial",
   "theorems": [
    "C45_settings_partial",
    "C45_refuted"
   ],
   "note": "Every blogcfile is characterised; the claim fails only for a variable with an empty name, which is accepted."
  },
  {
   "property": "C46",
   "status": "partial",
   "theorems": [
    "C46_name",
    "C46_distinct_partial",
    "C46_slash_refuted",
    "C46_index_refuted",
    "C46_inside",
    "C46_inside_refuted",
    "C46_tag_pages"
   ],
   "note": "Names are those documented and distinct up to the three refutations shown: a leading slash in a slug, a page called index, and '..' in a slug."
  },
  {
   "property": "C47",
   "status": "partial",
   "theorems": [
    "C47_words_partial",
    "C47_blogcfile_partial",
    "C47_refuted",
    "C47_program",
    "C47_dirname",
    "C47_runserver",
    "C47_sources",
    "C47_value",
    "C47_no_value"
   ],
   "note": "Every value is one literal word, except that tags are put between single quotes without quoting; proved for tags without single quotes, refuted with one."
  },
  {
   "property": "C48",
   "status": "proved",
   "theorems": [
    "C48_rebuild"
   ],
   "note": "For every set of files and times, both directions."
  },
  {
   "property": "C49",
   "status": "partial",
   "theorems": [
    "C49_executor_partial",
    "C49_unknown_last",
    "C49_forgotten",
    "C49_refuted"
   ],
   "note": "Proved when all requested rules exist; an unknown rule followed by one that succeeds gives 0."
  },
  {
   "property": "C50",
   "status": "partial",
   "theorems": [
    "C50_reload_partial",
    "C50_stuck",
    "C50_refuted"
   ],
   "note": "A changed and valid blogcfile is taken over (C50_reload_partial), but after one that is not valid nothing is built any more whatever happens (C50_stuck, C50_refuted): the claim is false of the code."
  },
  {
   "property": "C51",
   "status": "partial",
   "theorems": [
    "C51_collected",
    "C51_ends",
    "C51_partial",
    "C51_refuted"
   ],
   "note": "Proved for every schedule and pipe capacity if the command reads its input before it writes, or the input fits into the pipe, and its errors fit into the pipe; false for other commands (C51_refuted)."
  },
  {
   "property": "C52",
   "status": "partial",
   "theorems": [
    "C52_rm",
    "C52_clean_partial",
    "C52_refuted",
    "C52_source_refuted"
   ],
   "note": "Proved for every site, tree and state when OUTPUT_DIR does not end with a slash; output names with '..' leave the output directory (C46_inside_refuted). With OUTPUT_DIR=a/b/ clean removes the directory a (C52_refuted); with OUTPUT_DIR=. it removes the sources of copied files (C52_source_refuted)."
  },
  {
   "property": "C53",
   "status": "partial",
   "theorems": [
    "C53_copy_partial",
    "C53_ends",
    "C53_directories",
    "C53_refuted",
    "C53_lost",
    "C53_same_refuted"
   ],
   "note": "Proved for every content and every split of reads and writes when no read fails and source and destination are different files; a failing read gives a truncated copy and 0 (C53_refuted), and a file copied to itself is emptied (C53_lost)."
  },
  {
   "property": "C54",
   "status": "proved",
   "theorems": [
    "C54_arguments",
    "C54_mapping",
    "C54_executed"
   ],
   "note": "Every argument string: understood exactly if of the documented form."
  },
  {
   "property": "C55",
   "status": "partial",
   "theorems": [
    "C55_define_partial",
    "C55_refuted",
    "C55_status_refuted"
   ],
   "note": "Every -D argument is characterised; an empty name is accepted, and a value that is not UTF-8 ends the run with status 0."
  },
  {
   "property": "C56",
   "status": "partial",
   "theorems": [
    "C56_listing_partial",
    "C56_page_partial",
    "C56_global_refuted"
   ],
   "note": "For every rule that lists posts and every setting, with and without pages, from posts_ordering to the posts loaded; sorted posts must lie within 68 years of each other (C12). A blogcfile whose [global] section sets FILTER_SORT or FILTER_REVERSE itself overrides the order: shown by C56_global_refuted."
  },
  {
   "property": "C57",
   "status": "partial",
   "theorems": [
    "C57_read_terminates_refuted"
   ],
   "note": "false of the code: a read error (path is a directory) loops for ever; for readable files termination is C02"
  },
  {
   "property": "C58",
   "status": "partial",
   "theorems": [
    "C58_inline",
    "C58_lost_refuted",
    "C58_twice_refuted"
   ],
   "note": "For every text with a meaning in InlineSpec.v, which includes marks that are not closed, brackets without an address, and links and images cut off by the end of the text. No meaning is given to links cut off by the end of an emphasis (what follows is shown twice) and to two marks or brackets at the very end of a text (they are lost): findings."
  },
  {
   "property": "C59",
   "status": "partial",
   "theorems": [
    "C59_output",
    "C59_attributes_refuted"
   ],
   "note": "The grammar is proved for every text; link and image attribute values are not escaped (finding)."
  },
  {
   "property": "C60",
   "status": "partial",
   "theorems": [
    "C60_documents",
    "C60_numbered_line",
    "C60_unended_refuted",
    "C60_unended_block_refuted",
    "C60_lazy_refuted",
    "C60_empty_quote_refuted",
    "C60_empty_item_refuted",
    "C60_dots_refuted",
    "C60_dots_lost_refuted"
   ],
   "note": "Proved for the documents of DocSpec.v, paragraphs may begin with markup, numbers, hashes or dots; blocks separated by blank lines; the last line ended, or not ended and long enough (two bytes in a paragraph, HTML block or list, one in a quote or code block, two after the prefix when it is the only line of the block). Beyond them the claim is false: a short last line without a line ending is lost; a quote or code block whose last line lacks the prefix runs into the next paragraph; a line of full stops followed by a line of one byte is lost or repeats the rest of the document."
  },
  {
   "property": "C61",
   "status": "partial",
   "theorems": [
    "C61_crashes_partial",
    "C61_refuted",
    "C61_answers"
   ],
   "note": "Every request line is characterised; exactly those with an empty target crash the server (strlen of NULL)."
  },
  {
   "property": "C62",
   "status": "partial",
   "theorems": [
    "C62_errors_known",
    "C62_message",
    "C62_refuted"
   ],
   "note": "Proved for errors and files; refuted for redirections, which repeat CR LF of the decoded path."
  },
  {
   "property": "C63",
   "status": "partial",
   "theorems": [
    "C63_line_partial",
    "C63_upto_end",
    "C63_refuted"
   ],
   "note": "Proved when every read but the last fills the buffer; a short read cuts the line."
  },
  {
   "property": "C64",
   "status": "partial",
   "theorems": [
    "C64_touched",
    "C64_failed",
    "C64_succeeded",
    "C64_stored_refuted",
    "C64_empty_variable_refuted"
   ],
   "note": "Proved but for 'stored': errors of fprintf and fclose are not looked at. -p with an empty name is undefined."
  },
  {
   "property": "C65",
   "status": "partial",
   "theorems": [
    "C65_end_to_end_partial",
    "C65_variable_partial"
   ],
   "note": "Proved for blogcfiles in UTF-8 with tags without single quotes and for one-line source paths."
  },
  {
   "property": "C66",
   "status": "proved",
   "theorems": [
    "C66_nothing_to_do",
    "C66_second_run",
    "C66_dev_refuted"
   ],
   "note": "For every site; blogc's answers about the last page must not change. C66_dev_refuted records that -D (development) is not among the things compared."
  },
  {
   "property": "C67",
   "status": "proved",
   "theorems": [
    "C67_rule",
    "C67_up_to_date",
    "C67_untouched"
   ],
   "note": "For every site whose inputs are readable, and tools that write with the current time; what is assumed of the tools is assumed only of the commands of the site, in worlds that the caller chooses (`good`)."
  },
  {
   "property": "C68",
   "status": "proved",
   "theorems": [
    "C68_commands",
    "C68_tag_page"
   ],
   "note": "As an invariant of the world under intended commands only."
  },
  {
   "property": "C69",
   "status": "partial",
   "theorems": [
    "C69_cleaned",
    "C69_refuted"
   ],
   "note": "Proved for every site when clean returns 0. C69_refuted: a file named twice makes clean fail and leave the rest."
  },
  {
   "property": "C70",
   "status": "partial",
   "theorems": [
    "C70_watch",
    "C70_older_refuted",
    "C70_added_refuted"
   ],
   "note": "Proved for every history in which files do not disappear or get older. A file replaced by an older one (C70_older_refuted) and a file added to a copied directory (C70_added_refuted) are not noticed."
  },
  {
   "property": "C71",
   "status": "proved",
   "theorems": [
    "C71_context",
    "C71_site_ok",
    "C71_ends"
   ],
   "note": "For every disk whose names have bounded length."
  },
  {
   "property": "C72",
   "status": "partial",
   "theorems": [
    "C72_feed_partial",
    "C72_address_refuted",
    "C72_format_refuted"
   ],
   "note": "Proved for settings without '{' and '%' and with a blog_prefix that is not empty, for every listing and tag. False for others: an empty blog_prefix gives a wrong address (C72_address_refuted), one with a conversion is undefined behaviour (C72_format_refuted)."
  },
  {
   "property": "C73",
   "status": "partial",
   "theorems": [
    "C73_links_partial",
    "C73_refuted"
   ],
   "note": "Proved for slugs without a slash and ordinary source extensions; the entry of a post in a subdirectory is linked to a page that does not exist (C73_refuted)."
  },
  {
   "property": "C74",
   "status": "partial",
   "theorems": [
    "C74_wellformed",
    "C74_refuted"
   ],
   "note": "Proved for values without markup; the variables are not escaped, so a title with an ampersand breaks the feed (C74_refuted)."
  },
  {
   "property": "C75",
   "status": "proved",
   "theorems": [
    "C75_hooks"
   ],
   "note": "For every command and every outcome of the calls."
  },
  {
   "property": "C76",
   "status": "partial",
   "theorems": [
    "C76_stops_partial",
    "C76_refuted"
   ],
   "note": "Proved for every interleaving once the main thread is in its loop; if the server fails before that, bm_reloader_stop is undone by 'running = true' and blogc-make goes on for ever without a server (C76_refuted). That the loop is left at its next test is what is proved; that the scheduler lets it get there is not expressed."
  },
  {
   "property": "C77",
   "status": "partial",
   "theorems": [
    "C77_live_partial",
    "C77_interrupted",
    "C77_returns",
    "C77_wait",
    "C77_refuted"
   ],
   "note": "Proved for every interleaving without signals, and for ^C handled while the main thread is in its loop; the wait for the server ends (C77_wait); ^C while the main thread holds mutex_running waits for ever (C77_refuted)."
  },
  {
   "property": "C78",
   "status": "partial",
   "theorems": [
    "C78_line_partial",
    "C78_ends",
    "C78_ignored",
    "C78_refuted"
   ],
   "note": "Proved for every documented command line and for every unknown option; but a last -f without a name is ignored (C78_refuted) and so is what follows -D or -V in the same word (C78_ignored)."
  },
  {
   "property": "C79",
   "status": "proved",
   "theorems": [
    "C79_built"
   ],
   "note": "For every run: combines the command line (C78), the context (C71) and building (C67). The removal of the temporary template is part of C78_line_partial."
  },
  {
   "property": "C80",
   "status": "partial",
   "theorems": [
    "C80_removed_partial",
    "C80_other",
    "C80_refuted",
    "C80_dangling",
    "C80_rejected_refuted"
   ],
   "note": "Proved for directories without symbolic links below them; as stat follows links, the files of a directory outside are removed through a link (C80_refuted), a dangling link stops the removal (C80_dangling), and then git is told that the push failed although the new site is published (C80_rejected_refuted)."
  },
  {
   "property": "C81",
   "status": "partial",
   "theorems": [
    "C81_place",
    "C81_default",
    "C81_other",
    "C81_error_refuted"
   ],
   "note": "Proved for every well-formed settings file with at most one section for the repository; an error anywhere in the file moves the site to htdocs (C81_error_refuted)."
  },
  {
   "property": "C82",
   "status": "partial",
   "theorems": [
    "C82_mirror",
    "C82_disabled",
    "C82_command_partial",
    "C82_refuted"
   ],
   "note": "Which mirror, how often and the result are proved for all settings; that git gets the value as one argument only for values without bytes special to the shell, as it is not quoted (C82_refuted)."
  },
  {
   "property": "C83",
   "status": "proved",
   "theorems": [
    "C83_login",
    "C83_hooks"
   ],
   "note": "For every command line and environment; what a valid command does is C37 and C38."
  },
  {
   "property": "C84",
   "status": "proved",
   "theorems": [
    "C84_rebuild",
    "C84_unknown",
    "C84_fails"
   ],
   "note": "For every run that changed the link, if the link is still resolved to a directory of that name."
  },
  {
   "property": "C85",
   "status": "partial",
   "theorems": [
    "C85_build_partial",
    "C85_refuted",
    "C85_home_refuted"
   ],
   "note": "Proved for builds directories without dollar signs, backquotes, quotes, backslashes; a dollar sign is expanded (C85_refuted), and without HOME a NULL pointer is printed (C85_home_refuted)."
  },
  {
   "property": "C86",
   "status": "partial",
   "theorems": [
    "C86_stable_partial",
    "C86_user_partial",
    "C86_value",
    "C86_refuted"
   ],
   "note": "Proved for all variables but the two of rusage, and for those when the configuration sets both or none; setting one of them is undone by the use of the other (C86_refuted)."
  },
  {
   "property": "C87",
   "status": "partial",
   "theorems": [
    "C87_line_partial",
    "C87_ends",
    "C87_refuted"
   ],
   "note": "Proved for every command line of the documented form and for every -h, -v or unknown option; but text after a number is ignored, negative numbers wrap around, and a last -t, -p or -m without a value is ignored or dereferences NULL (C87_refuted)."
  },
  {
   "property": "C88",
   "status": "partial",
   "theorems": [
    "C88_utf8_partial",
    "C88_run_partial",
    "C88_refuted"
   ],
   "note": "Proved for every run in which no printed variable asks for a number of bytes (NAME_10), if strftime and the operating system answer in UTF-8; a number of bytes may cut a character (C88_refuted)."
  },
  {
   "property": "C89",
   "status": "partial",
   "theorems": [
    "C89_partial",
    "C89_fresh",
    "C89_own",
    "C89_retry_refuted"
   ],
   "note": "Proved for every site and world under the stated assumptions on the tools: blogc does what main.c does or dies before it touches a file, a copy is all or nothing (a copy that stops half-way and is not repaired by the next run is C89_retry_refuted), each path is a file of its own, clocks do not go back, blogc answers about the last page are stable. -D is not compared (C66_dev_refuted)."
  },
  {
   "property": "C90",
   "status": "proved",
   "theorems": [
    "C90_told"
   ],
   "note": "For every command line."
  },
  {
   "property": "C91",
   "status": "partial",
   "theorems": [
    "C91_life_partial",
    "C91_history_partial",
    "C91_same_time_refuted"
   ],
   "note": "By induction over the history of edits and runs, failing runs and broken posts included; what blogc says about the last page is derived, not assumed (C91_life_partial). Missing: what C89 misses for each run; no two rules may make the same file (distinct). The condition on the times is needed: C91_same_time_refuted."
  },
  {
   "property": "C92",
   "status": "partial",
   "theorems": [
    "C92_answers",
    "C92_pages",
    "C92_refuted"
   ],
   "note": "Proved if asking blogc works: fewer than 2^24 posts, all dated or none, posts_per_page at least 1, no FILTER_* in [global], tags non-empty. If blogc cannot be asked, the answer is taken as no page and the build succeeds without them (C92_refuted)."
  },
  {
   "property": "C93",
   "status": "partial",
   "theorems": [
    "C93_partial"
   ],
   "note": "Composition of C89 with the loader's pages. Missing: files shared by two rules, what C89 and C92 exclude."
  },
  {
   "property": "C94",
   "status": "proved",
   "theorems": [
    "C94_value",
    "C94_shown"
   ],
   "note": "For every run that ends and does not hit the undefined behaviour of an empty name (C64_empty_variable_refuted)."
  },
  {
   "property": "C95",
   "status": "partial",
   "theorems": [
    "C95_make_partial"
   ],
   "note": "Composition of C71, C78, C79, C89 and C92 in one statement about main(). Missing: what C89 misses (tools that fail half-way), the rules that do not build (clean, runserver, watch); names that are not plain, posts_per_page below 1."
  },
  {
   "property": "C96",
   "status": "partial",
   "theorems": [
    "C96_usage_partial",
    "C96_nearest_refuted"
   ],
   "note": "Proved for every time and size below 2^51, in the arithmetic of float and double; the digits are the nearest while the number fits a float (2^24: 16.7 seconds, 16 GB), and off by at most one part in 2^24 beyond, where the claim is false (C96_nearest_refuted). That getrusage does not fail is assumed; on systems where long and int differ in how they are passed, %d with a long is undefined."
  },
  {
   "property": "C97",
   "status": "partial",
   "theorems": [
    "C97_docker_partial",
    "C97_again_refuted"
   ],
   "note": "The page shows the right answer for every content of the file; the function itself, asked again, always says no, as a local variable shadows the static one (C97_again_refuted). blogc asks again only if the answer was no."
  },
  {
   "property": "C98",
   "status": "proved",
   "theorems": [
    "C98_total",
    "C98_report"
   ],
   "note": "That nothing is missing is proved for every accepted source; the records for every accepted list of texts, variables and statements that does not contain NUL and whose last text is kept (C21). A text is reported without the blanks the cleaners take."
  },
  {
   "property": "C99",
   "status": "partial",
   "theorems": [
    "C99_descriptors",
    "C99_result",
    "C99_ends",
    "C99_waited_partial",
    "C99_waited_refuted"
   ],
   "note": "Descriptors and result for every combination of failing calls. False of the code: after a failed write or read the command is not waited for (C99_waited_refuted); otherwise it is, exactly when there is no error (C99_waited_partial). A write is assumed to write all or fail, waitpid to succeed."
  },
  {
   "property": "C100",
   "status": "partial",
   "theorems": [
    "C100_says_partial",
    "C100_silent",
    "C100_undefined_exact",
    "C100_refuted"
   ],
   "note": "False of the code: if blogc ends with an error and has written nothing, as when it is killed, a NULL pointer is printed (C100_refuted); that is the only case (C100_undefined_exact)."
  },
  {
   "property": "C101",
   "status": "proved",
   "theorems": [
    "C101_post"
   ],
   "note": "For the documents of C60 and contents of at least two bytes (C25); a depth that is not an integer that fits an int is outside the claim (C25_depth_refuted)."
  },
  {
   "property": "C102",
   "status": "proved",
   "theorems": [
    "C102_report",
    "C102_kinds",
    "C102_place"
   ],
   "note": "Positions under the hypotheses of C14 (no LF CR pair, the line not empty); program names without a colon, as all are. The numbers are printed with %d although they are size_t (not modelled)."
  },
  {
   "property": "C103",
   "status": "partial",
   "theorems": [
    "C103_address",
    "C103_one_socket",
    "C103_url",
    "C103_texts_partial",
    "C103_texts_refuted",
    "C103_listen_refuted"
   ],
   "note": "The first address that can be bound, the sockets and the URL for every list of addresses. False of the code: if listen fails, the addresses that follow are not tried (C103_listen_refuted); the text of an address is lost if socket or setsockopt fails for it (C103_texts_refuted), and only then (C103_texts_partial)."
  },
  {
   "property": "C104",
   "status": "partial",
   "theorems": [
    "C104_request",
    "C104_undefined",
    "C104_empty_refuted"
   ],
   "note": "For every line that is not empty and has a target; the response is that of C61 and C62. False of the code: the memory of an empty line is lost (C104_empty_refuted). A write is taken to write everything, as the code only warns otherwise."
  },
  {
   "property": "C105",
   "status": "partial",
   "theorems": [
    "C105_line",
    "C105_stops",
    "C105_refuted"
   ],
   "note": "For every command line of the manual; what follows the letter of a flag is ignored and so is a last option without its value (C105_refuted). What the options then do is C64."
  }
 ]
}