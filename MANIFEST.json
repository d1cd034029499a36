{
 "claims": [
  {
   "property": "C01",
   "status": "proved",
   "theorems": [
    "C01_served_by_a_fitting_route",
    "C01_dispatch_sound"
   ],
   "note": ""
  },
  {
   "property": "C02",
   "status": "proved",
   "theorems": [
    "C02_dispatch_complete"
   ],
   "note": ""
  },
  {
   "property": "C03",
   "status": "proved",
   "theorems": [
    "C03_one_chain",
    "C03_served_by_its_chain",
    "C03_served_by_the_best_route",
    "C03_priority"
   ],
   "note": ""
  },
  {
   "property": "C04",
   "status": "partial",
   "theorems": [
    "C04_lasting_partial",
    "C04_served_params_partial",
    "C04_params_exact_refuted",
    "C04_params_value_refuted",
    "C04_params_left_partial",
    "C04_params_exact_partial"
   ],
   "note": "False as stated: a dead-end regexp segment leaves its parameter behind (refuted twice). Proved, for trees and for engines: exactness for tables without inner regexp segments; in all tables, the right value for every name the chosen route binds otherwise than by an inner regexp segment, and that every deviation comes from a dead-end inner regexp segment."
  },
  {
   "property": "C05",
   "status": "partial",
   "theorems": [
    "C05_catch_all_order_refuted",
    "C05_same_kind_order_partial"
   ],
   "note": "False for catch-alls taking several segments (last registered wins). Proved: exact order for all kinds."
  },
  {
   "property": "C06",
   "status": "proved",
   "theorems": [
    "C06_slash_insensitive"
   ],
   "note": ""
  },
  {
   "property": "C07",
   "status": "partial",
   "theorems": [
    "C07_params_refuted",
    "C07_empty_segment_refuted",
    "C07_static_router_partial"
   ],
   "note": "False: with the static router Params is nil (or stale), and routes with an empty segment are found only by it (two refutations). Proved: equal replies for paths not spelled like a literal route, and for literal routes without empty segments whose handlers do not use Params."
  },
  {
   "property": "C08",
   "status": "partial",
   "theorems": [
    "C08_recycled_params_refuted",
    "C08_recycled_context_partial",
    "C08_no_static_router_partial",
    "C08_no_params_partial"
   ],
   "note": "False: a static hit keeps the Params of the recycled context. Proved: independence when the path is not a static hit, when the static router is off, and when no handler uses Params."
  },
  {
   "property": "C09",
   "status": "proved",
   "theorems": [
    "C09_middleware_order",
    "C09_use_order_irrelevant"
   ],
   "note": ""
  },
  {
   "property": "C10",
   "status": "partial",
   "theorems": [
    "C10_group_middleware_refuted",
    "C10_use_confined_partial"
   ],
   "note": "False for middleware passed to Group itself. Proved: a Use call on a group changes exactly the routes inside it."
  },
  {
   "property": "C11",
   "status": "proved",
   "theorems": [
    "C11_duplicates_panic",
    "C11_accepted_distinct"
   ],
   "note": ""
  },
  {
   "property": "C12",
   "status": "partial",
   "theorems": [
    "C12_shadowed_refuted",
    "C12_sole_route_partial",
    "C12_literal_route_partial",
    "C12_reachable_partial",
    "C12_reached_partial",
    "C12_unreached_partial"
   ],
   "note": "False: /:id and /<id> are both accepted and the second is never reached. Proved: exactly which routes are reached, for tables without regexp segments (the exact condition, both on the tree and for requests to an engine); with regexp segments, a sufficient condition for never being reached, that a route is reached by requests it alone fits, and that literal routes are reached by their own path."
  },
  {
   "property": "C13",
   "status": "proved",
   "theorems": [
    "C13_handler_accepts_iff"
   ],
   "note": ""
  },
  {
   "property": "C14",
   "status": "proved",
   "theorems": [
    "C14_root_only",
    "C14_root_allowed"
   ],
   "note": ""
  },
  {
   "property": "C15",
   "status": "proved",
   "theorems": [
    "C15_any",
    "C15_any_default"
   ],
   "note": ""
  },
  {
   "property": "C16",
   "status": "proved",
   "theorems": [
    "C16_at_most_once_in_order"
   ],
   "note": ""
  },
  {
   "property": "C17",
   "status": "proved",
   "theorems": [
    "C17_chain_stops",
    "C17_all_run"
   ],
   "note": ""
  },
  {
   "property": "C18",
   "status": "proved",
   "theorems": [
    "C18_flags",
    "C18_first_status_wins",
    "C18_explicit_header"
   ],
   "note": ""
  },
  {
   "property": "C19",
   "status": "proved",
   "theorems": [
    "C19_implicit_header"
   ],
   "note": ""
  },
  {
   "property": "C20",
   "status": "partial",
   "theorems": [
    "C20_behind_partial",
    "C20_stream_behind_partial",
    "C20_content_type_refuted",
    "C20_response_helpers_partial",
    "C20_stream_partial"
   ],
   "note": "False as stated: the helpers send the header before they set Content-Type, so the client gets the type that net/http guesses (C20_content_type_refuted). Proved: status and body are exact and the type is the guessed one; Stream delivers its type. Behind other handlers that have not answered the same holds, over the headers they set (C20_behind_partial, C20_stream_behind_partial)."
  },
  {
   "property": "C21",
   "status": "partial",
   "theorems": [
    "C21_status_refuted",
    "C21_escape_refuted",
    "C21_recovery_contains_partial",
    "C21_logger_is_calm",
    "C21_cors_is_calm"
   ],
   "note": "False in two corners: ctx.WriteHeader with an invalid status panics after the Context has noted it, so no 500 is sent (C21_status_refuted); a handler before Recovery that calls Next twice starts a handler outside Recovery (C21_escape_refuted). Proved for every chain whose handlers before Recovery are calm, whatever the later ones do."
  },
  {
   "property": "C22",
   "status": "proved",
   "theorems": [
    "C22_refusals",
    "C22_no_other_refusals"
   ],
   "note": ""
  },
  {
   "property": "C23",
   "status": "proved",
   "theorems": [
    "C23_unmatched"
   ],
   "note": ""
  },
  {
   "property": "C24",
   "status": "partial",
   "theorems": [
    "C24_wrong_path_refuted",
    "C24_full_path_partial",
    "C24_full_path_distinct_partial"
   ],
   "note": "False when two spellings of one pattern are registered. Proved: exactly which URI is reported in general, and the property for tables without such duplicates."
  },
  {
   "property": "C25",
   "status": "proved",
   "theorems": [
    "C25_environ",
    "C25_write_once"
   ],
   "note": ""
  },
  {
   "property": "C26",
   "status": "partial",
   "theorems": [
    "C26_preflight",
    "C26_ordinary",
    "C26_origin_decision",
    "C26_preflight_behind",
    "C26_ordinary_behind",
    "C26_no_route_refuted"
   ],
   "note": "The decision, the preflight answer and the continuation are proved for CORS as the first handler and, over what the handlers before it left, anywhere in the chain. C26_no_route_refuted: a preflight request for a path without an OPTIONS route never reaches the middleware and is answered 404."
  },
  {
   "property": "C27",
   "status": "partial",
   "theorems": [
    "C27_long_body_refuted",
    "C27_logger_chain_partial",
    "C27_logger_invisible_partial",
    "C27_no_errors",
    "C27_broken_body_refuted",
    "C27_second_read_refuted"
   ],
   "note": "False as stated, in three ways: a JSON body longer than the limit (1<<20) is cut (C27_long_body_refuted, for every limit); a JSON body that breaks off is taken for a complete one (C27_broken_body_refuted); a second read gives an empty body where it failed without Logger (C27_second_read_refuted). Proved: the rest of the chain always runs as it would alone on the body that Logger leaves, and if the body is no longer than the limit, arrives whole and is not read again after it was closed, the chain runs as it would alone on the body that arrived. Logger's own lines are part of the statement."
  },
  {
   "property": "C28",
   "status": "partial",
   "theorems": [
    "C28_number",
    "C28_unsigned_number",
    "C28_round_trip",
    "C28_not_a_number_refuted",
    "C28_not_a_number_partial"
   ],
   "note": "numbers, clamping and round trip proved for every integer getter; \"0 when not a number\" is false for a >64-bit number followed by other text (refuted), proved otherwise. Floating-point numbers: C87."
  },
  {
   "property": "C29",
   "status": "partial",
   "theorems": [
    "C29_present",
    "C29_determined",
    "C29_absent",
    "C29_map_refuted",
    "C29_map_partial",
    "C29_parsed_once"
   ],
   "note": "Plain accessors proved; QueryMap also accepts names that continue after the bracket (refuted), exact otherwise."
  },
  {
   "property": "C30",
   "status": "partial",
   "theorems": [
    "C30_query_map_refuted",
    "C30_query_map_partial",
    "C30_exact_partial",
    "C30_any_order_partial"
   ],
   "note": "Two names that continue differently after key[x] collide, so the result depends on the map iteration order (refuted). Proved: deterministic when no name continues after the bracket (C30_query_map_partial), and exactly when such names have the same value (C30_exact_partial); otherwise every one of the values is returned in some order (C30_any_order_partial)."
  },
  {
   "property": "C31",
   "status": "proved",
   "theorems": [
    "C31_choice",
    "C31_body",
    "C31_form"
   ],
   "note": "Choice of the decoder for every method and Content-Type, and the whole of ctx.Bind as a program over the Context. Decoding JSON/XML bodies and parsing forms are parameters."
  },
  {
   "property": "C32",
   "status": "partial",
   "theorems": [
    "C32_refuted",
    "C32_partial"
   ],
   "note": "False as stated: integers are parsed with 64 bits and cut to the width of the field (C32_refuted: int8 bound to 300 holds 44). Proved for every number that fits, for nested structs, pointers and slices; what is not a number makes the call fail."
  },
  {
   "property": "C33",
   "status": "partial",
   "theorems": [
    "C33_untouched",
    "C33_written_partial",
    "C33_uploads",
    "C33_accepted",
    "C33_refuted"
   ],
   "note": "False as stated: a nil pointer to a struct is replaced although nothing selects it (C33_refuted). Proved: unselected and unexported fields keep their value on every outcome, selected ones hold what the text says up to C32 and C56, uploads, and which forms are accepted. Fields inside a struct that is itself selected (decoded as JSON) are not covered."
  },
  {
   "property": "C34",
   "status": "partial",
   "theorems": [
    "C34_refuted",
    "C34_partial",
    "C34_depth"
   ],
   "note": "False for types that contain themselves through nil pointers (C34_refuted: no amount of nesting is enough). Proved: ends for all other types; finite depth is the exact condition."
  },
  {
   "property": "C35",
   "status": "partial",
   "theorems": [
    "C35_all_values",
    "C35_last_value_partial",
    "C35_refuted"
   ],
   "note": "map[string][]string proved. map[string]string: proved when every key has a value; a key without values panics (C35_refuted)."
  },
  {
   "property": "C36",
   "status": "proved",
   "theorems": [
    "C36_etag",
    "C36_etag2",
    "C36_reads",
    "C36_reads2"
   ],
   "note": ""
  },
  {
   "property": "C37",
   "status": "proved",
   "theorems": [
    "C37_disposition",
    "C37_plain_name",
    "C37_bytes",
    "C37_injective"
   ],
   "note": ""
  },
  {
   "property": "C38",
   "status": "partial",
   "theorems": [
    "C38_proxy_refuted",
    "C38_proxy_partial",
    "C38_real_ip_partial"
   ],
   "note": "Entries separated by \",\" alone are not split (refuted); an empty first entry falls through to the remote address. Proved for \", \"."
  },
  {
   "property": "C39",
   "status": "partial",
   "theorems": [
    "C39_listing_refuted",
    "C39_replies",
    "C39_pattern",
    "C39_file_system_partial",
    "C39_file_system_refuted"
   ],
   "note": "False as stated: for a directory with final slash the index is read from the file system of the process, relative to its working directory (refuted; C39_listing_refuted: without an index file, as Static registers it, a directory of the process is listed). Proved: the replies case by case for any file system, and that in all other cases they depend on the configured file system and the requested name only. http.ServeContent and http.ServeFile are parameters of the model."
  },
  {
   "property": "C40",
   "status": "partial",
   "theorems": [
    "C40_every_reply",
    "C40_tags_partial",
    "C40_tag_identifies",
    "C40_same_second_refuted",
    "C40_other_second_partial"
   ],
   "note": "304 without content for the current tag, and any other request gets what http.ServeContent makes of the file (C40_tags_partial); with ServeContent as it is in Go 1.15 (NetServe.v, NetRange.v), every reply has the tag and 200 the whole content (C40_every_reply). That a tag stands for one content is refuted: tags have seconds, so a file rewritten within one second with the same size keeps its tag and is answered 304 (C40_same_second_refuted)."
  },
  {
   "property": "C41",
   "status": "proved",
   "theorems": [
    "C41_same_replies",
    "C41_variant_segments",
    "C41_variant_idempotent",
    "C41_variant_plain",
    "C41_same_tables"
   ],
   "note": ""
  },
  {
   "property": "C42",
   "status": "proved",
   "theorems": [
    "C42_contexts_not_shared",
    "C42_steps_stay_home"
   ],
   "note": "Interleaving model of ServeHTTP over a shared pool (Machine.v): contexts in use are pairwise distinct and not in the pool in every reachable state, and a step touches only the context and connection of its own goroutine. Handlers that keep the Context after they return are outside the model."
  },
  {
   "property": "C43",
   "status": "partial",
   "theorems": [
    "C43_recycled_params_refuted",
    "C43_as_if_alone_partial",
    "C43_response_partial",
    "C43_no_static_router_partial",
    "C43_no_params_partial"
   ],
   "note": "False: a static-router hit shows the Params left in the recycled context by another request. Proved: every ended request went exactly as if served alone with a context that had served only whole requests, hence the lone response when the path is no static hit, the static router is off, or no handler uses Params."
  },
  {
   "property": "C44",
   "status": "partial",
   "theorems": [
    "C44_all_routes",
    "C44_by_method",
    "C44_raw_router_refuted",
    "C44_raw_router_late_refuted",
    "C44_raw_router_partial",
    "C44_raw_router_no_before_partial"
   ],
   "note": "PrintRawAllRoutes and PrintRawRoutes are exact. False for PrintRawRouter: it leaves out the Before handlers of the root and also lists routes registered after Handler(). Proved for it: everything below the root at that time is drawn, with the number of the other handlers."
  },
  {
   "property": "C45",
   "status": "partial",
   "theorems": [
    "C45_multipart_default_refuted",
    "C45_multipart_shared_refuted",
    "C45_multipart_memory_partial"
   ],
   "note": "False: the default is 0 unless the option is given, and the limit is a global shared by all engines. Proved: the exact value after Handler()."
  },
  {
   "property": "C46",
   "status": "partial",
   "theorems": [
    "C46_unexpected_type_refuted",
    "C46_positions_partial",
    "C46_defaults",
    "C46_values"
   ],
   "note": "A non-bool Secure argument sets Secure (refuted); every other position proved. Rendering of the cookie: C103."
  },
  {
   "property": "C47",
   "status": "proved",
   "theorems": [
    "C47_inert",
    "C47_denotes"
   ],
   "note": ""
  },
  {
   "property": "C48",
   "status": "partial",
   "theorems": [
    "C48_regexp_refuted",
    "C48_groupless_never_matches_partial",
    "C48_grouped_can_match_partial"
   ],
   "note": "False: an expression without groups is accepted and never matches. Proved: general form of that, and that expressions with as many groups as parentheses match exactly what the engine matches."
  },
  {
   "property": "C49",
   "status": "proved",
   "theorems": [
    "C49_pattern_grammar",
    "C49_adds_iff"
   ],
   "note": ""
  },
  {
   "property": "C50",
   "status": "proved",
   "theorems": [
    "C50_called_with_request",
    "C50_invoked_in_turn",
    "C50_nil_rejected",
    "C50_unsupported_rejected"
   ],
   "note": ""
  },
  {
   "property": "C51",
   "status": "partial",
   "theorems": [
    "C51_partial",
    "C51_all_errors",
    "C51_refuted"
   ],
   "note": "Proved for values without nil pointers on the way; a nil pointer panics (C51_refuted, with the exact condition). The struct validator is a parameter."
  },
  {
   "property": "C52",
   "status": "proved",
   "theorems": [
    "C52_clean",
    "C52_idempotent",
    "C52_unchanged"
   ],
   "note": ""
  },
  {
   "property": "C53",
   "status": "partial",
   "theorems": [
    "C53_next_skips_refuted",
    "C53_no_gap_partial"
   ],
   "note": "False: calling Next twice skips a handler when a response was made in between. Proved: no gaps as long as there is no response."
  },
  {
   "property": "C54",
   "status": "proved",
   "theorems": [
    "C54_behind",
    "C54_redirects"
   ],
   "note": "First in the chain, and behind any handlers that have not answered: one Location whatever was set before; no page if a Content-Type was set (C54_behind). The target and the page of http.Redirect are parameters."
  },
  {
   "property": "C55",
   "status": "proved",
   "theorems": [
    "C55_behind",
    "C55_attachments",
    "C55_no_file"
   ],
   "note": "First in the chain, and behind any handlers that have not answered, whose headers are kept except those that the helpers set (C55_behind). http.ServeContent is a parameter, given the headers at that moment."
  },
  {
   "property": "C56",
   "status": "partial",
   "theorems": [
    "C56_refuted",
    "C56_partial"
   ],
   "note": "False as stated: a true field bound to \"false\" stays true (C56_refuted). Proved for fields that were false and for nil pointers."
  },
  {
   "property": "C57",
   "status": "partial",
   "theorems": [
    "C57_refuted",
    "C57_partial",
    "C57_numbers_partial"
   ],
   "note": "False as stated: the numbers count the failures, not the elements (C57_refuted). Proved: exactly which lines the message has in general, and the property when every element fails."
  },
  {
   "property": "C58",
   "status": "proved",
   "theorems": [
    "C58_parser",
    "C58_only_once"
   ],
   "note": "Form parsing is an oracle returning the form, whether it failed and the rest of the body; the choice of the oracle's mode and the once-only rule are proved."
  },
  {
   "property": "C59",
   "status": "proved",
   "theorems": [
    "C59_missing",
    "C59_present"
   ],
   "note": "The Float64 getters are in C87."
  },
  {
   "property": "C60",
   "status": "proved",
   "theorems": [
    "C60_address"
   ],
   "note": "http.ListenAndServe itself is outside the model; the address given to it is."
  },
  {
   "property": "C61",
   "status": "partial",
   "theorems": [
    "C61_unreported_refuted",
    "C61_reported_partial"
   ],
   "note": "False: the file is written to the underlying ResponseWriter, and Written() and Status() still say that nothing was sent; the refutation holds for every file and request. Proved: the handler's own 404 and 304 are reported."
  },
  {
   "property": "C62",
   "status": "proved",
   "theorems": [
    "C62_below_root"
   ],
   "note": ""
  },
  {
   "property": "C63",
   "status": "partial",
   "theorems": [
    "C63_redirect_partial",
    "C63_same_host",
    "C63_redirect_refuted"
   ],
   "note": "False for names with %, ? or #, which the handler does not escape (refuted with a directory a?b). Proved for all other paths."
  },
  {
   "property": "C64",
   "status": "partial",
   "theorems": [
    "C64_root_refuted",
    "C64_slash_partial"
   ],
   "note": "False for every prefix other than /: the pattern prefix/* does not match the prefix itself. Without prefix the index file is served for /, but from the working directory of the process (C64_slash_partial)."
  },
  {
   "property": "C65",
   "status": "proved",
   "theorems": [
    "C65_never_blocked",
    "C65_steps_fixed"
   ],
   "note": "From every reachable state every goroutine can end by its own steps, and once it has its context the number of its steps does not depend on the schedule. Handlers are finite programs in the model."
  },
  {
   "property": "C66",
   "status": "proved",
   "theorems": [
    "C66_values",
    "C66_values_again",
    "C66_no_upload",
    "C66_body",
    "C66_uri"
   ],
   "note": "net/http parsing, the query parser and the JSON and XML decoders are parameters. A form that cannot be parsed panics even when only headers or the query are bound."
  },
  {
   "property": "C67",
   "status": "proved",
   "theorems": [
    "C67_times",
    "C67_one_instant"
   ],
   "note": "time.Unix, time.ParseInLocation and time.LoadLocation are parameters; unexported and embedded time fields are left out."
  },
  {
   "property": "C68",
   "status": "partial",
   "theorems": [
    "C68_refused",
    "C68_no_panic_partial",
    "C68_refuted"
   ],
   "note": "False: a nil pointer, a key without values, an embedded non-struct and an embedded nil pointer of an unexported type panic. Proved: the refusals leave the target alone, and structs without embedded fields never panic when every key has a value."
  },
  {
   "property": "C69",
   "status": "proved",
   "theorems": [
    "C69_router_tree"
   ],
   "note": "Routes with the same segments after rewriting of : and * are one route in the tree; the number shown is that of the first one."
  },
  {
   "property": "C70",
   "status": "partial",
   "theorems": [
    "C70_router_tree_refuted",
    "C70_router_tree_partial",
    "C70_raw_router"
   ],
   "note": "False for PrintRouterTree when \"/\" is registered: the last branch is drawn with a tee and a bar although nothing follows. Proved for it otherwise, and for PrintRawRouter always."
  },
  {
   "property": "C71",
   "status": "proved",
   "theorems": [
    "C71_texts",
    "C71_determined",
    "C71_numbers"
   ],
   "note": "encoding/json, time and net/http parsing are parameters. Stated for a pointer to a value that is not a map (see C76)."
  },
  {
   "property": "C72",
   "status": "proved",
   "theorems": [
    "C72_files",
    "C72_determined"
   ],
   "note": "File headers are opaque values with three fields that can be looked into, as mapping does when nothing was uploaded."
  },
  {
   "property": "C73",
   "status": "proved",
   "theorems": [
    "C73_untouched",
    "C73_excluded",
    "C73_nothing",
    "C73_nil"
   ],
   "note": "On failure, fields behind pointers that were nil may be gone with the pointer."
  },
  {
   "property": "C74",
   "status": "partial",
   "theorems": [
    "C74_partial",
    "C74_refuted"
   ],
   "note": "False: an unexported embedded nil pointer panics when a field behind it is bound. Proved: for all other targets a call that ends does not panic, and fails exactly if something does not suit. Targets are well-typed values of types without named scalar kinds; ending is C75."
  },
  {
   "property": "C75",
   "status": "partial",
   "theorems": [
    "C75_ends_partial",
    "C75_validation",
    "C75_self_refuted",
    "C75_refuted"
   ],
   "note": "False: a struct with a nil pointer to its own type is searched forever, whatever the request. Proved: for types that do not contain themselves the depth of the recursion is bounded for all values and requests."
  },
  {
   "property": "C76",
   "status": "proved",
   "theorems": [
    "C76_lists",
    "C76_last"
   ],
   "note": "A key without values in the form (not possible over the network) panics for maps of strings; left out."
  },
  {
   "property": "C77",
   "status": "partial",
   "theorems": [
    "C77_nil_refuted",
    "C77_nil_map_refuted",
    "C77_value_partial",
    "C77_through_partial"
   ],
   "note": "False: nil pointers always panic, nil maps whenever the form is not empty, and structs by value panic. Proved: a value that is not passed through a pointer is not reported as bound if anything in it, at any depth of structs in structs, would have to be written; otherwise it is treated exactly as if it was passed through a pointer."
  },
  {
   "property": "C78",
   "status": "partial",
   "theorems": [
    "C78_partial",
    "C78_refuted"
   ],
   "note": "False for durations, numbers out of range and true fields given false; proved for all other numbers, truth values and strings."
  },
  {
   "property": "C79",
   "status": "partial",
   "theorems": [
    "C79_default_registers",
    "C79_default_chain",
    "C79_before_refuted",
    "C79_nofound_refuted",
    "C79_contains_partial"
   ],
   "note": "False: Before handlers, which include middleware given to Group as func(*Context), and not-found handlers run outside Recovery. Proved: the chain of every route, and that without not-found handlers and with calm Before handlers ServeHTTP never panics."
  },
  {
   "property": "C80",
   "status": "proved",
   "theorems": [
    "C80_no_cache_behind",
    "C80_refusals",
    "C80_no_cache",
    "C80_goes_on"
   ],
   "note": "Also behind any handlers that have not answered: NoCache replaces their caching headers (C80_no_cache_behind); for Abort and its siblings see C20_behind_partial."
  },
  {
   "property": "C81",
   "status": "partial",
   "theorems": [
    "C81_header",
    "C81_user_agent",
    "C81_ajax",
    "C81_websocket_accepts_refuted",
    "C81_websocket_misses_refuted",
    "C81_websocket_partial",
    "C81_websocket_single_partial",
    "C81_protocol"
   ],
   "note": "IsWebsocket looks for the text upgrade anywhere in the first Connection line: it accepts no-upgrade and misses a second line. Proved: exactly what it decides, and that requests with one Connection line that RFC 6455 means are accepted. strings.ToLower is modelled on ASCII."
  },
  {
   "property": "C82",
   "status": "proved",
   "theorems": [
    "C82_inputs",
    "C82_whole_body"
   ],
   "note": "The form parser is a parameter of the model."
  },
  {
   "property": "C83",
   "status": "proved",
   "theorems": [
    "C83_untyped",
    "C83_typed",
    "C83_every_name"
   ],
   "note": "Floating-point numbers and other values are abstract."
  },
  {
   "property": "C84",
   "status": "proved",
   "theorems": [
    "C84_truth",
    "C84_error"
   ],
   "note": ""
  },
  {
   "property": "C85",
   "status": "partial",
   "theorems": [
    "C85_panic_refuted",
    "C85_status_refuted",
    "C85_raw_refuted",
    "C85_logger_line_partial",
    "C85_default_logs",
    "C85_default_status",
    "C85_line_fields"
   ],
   "note": "False: a panic that passes Logger is not logged; if nobody responds the line says status 0 while the client gets 200; with raw writes to ResponseWriter the line says another status. Proved: exactly one line otherwise, with the status of Status(); with Default() always, also after panics, with the delivered status if the handlers use the Context and valid codes. Times and the URL text are parameters; the time stamp of Recovery's line is left out."
  },
  {
   "property": "C86",
   "status": "partial",
   "theorems": [
    "C86_refused_calls",
    "C86_group_refuted",
    "C86_amounts_partial",
    "C86_engine_partial",
    "C86_ordinary"
   ],
   "note": "False for Group: refused for an argument of a wrong type, or by a panic in a callback, it leaves the group and what was done before (C86_group_refuted: Handler() then panics). Proved: the other calls change nothing, and what every recovered registration amounts to."
  },
  {
   "property": "C87",
   "status": "proved",
   "theorems": [
    "C87_number",
    "C87_error"
   ],
   "note": "ParseFloat is a parameter of the model."
  },
  {
   "property": "C88",
   "status": "partial",
   "theorems": [
    "C88_saved",
    "C88_succeeds",
    "C88_failed_partial",
    "C88_refuted"
   ],
   "note": "False for failures after dst was opened: its old content is gone (refuted). Proved: exact content, permissions and other files on success; on failure a beginning of the upload, or everything as it was if the upload or dst cannot be opened. Opening, reading and writing may fail in any way; what Close reports is dropped by the code."
  },
  {
   "property": "C89",
   "status": "partial",
   "theorems": [
    "C89_name_refuted",
    "C89_name_partial"
   ],
   "note": "False when the last handler is a net/http handler (the name is that of a closure in water), a pointer (empty name) or a struct (panics): refuted. Proved: it is always about the last handler of the one chain picked for this request, with the exact result for each sort of handler."
  },
  {
   "property": "C90",
   "status": "proved",
   "theorems": [
    "C90_write",
    "C90_stream",
    "C90_json",
    "C90_xml",
    "C90_data",
    "C90_json_net_http",
    "C90_agrees",
    "C90_stream_agrees",
    "C90_data_agrees",
    "C90_string_agrees",
    "C90_htmlraw_agrees",
    "C90_json_agrees",
    "C90_xml_agrees",
    "C90_net_http_honest"
   ],
   "note": "Over an arbitrary ResponseWriter with its own state. That of net/http, with a connection that breaks after any number of bytes, is an instance, and with enough room every helper has the effect it has in the rest of the model."
  },
  {
   "property": "C91",
   "status": "partial",
   "theorems": [
    "C91_other_status_refuted",
    "C91_first_status_partial"
   ],
   "note": "False: the status is sent before the value is encoded, so it stays (refuted). Proved: the first status stays whatever is called later, and a value without encoding sends no body."
  },
  {
   "property": "C92",
   "status": "proved",
   "theorems": [
    "C92_engine_made",
    "C92_engine_snapshot"
   ],
   "note": "Proved for every program. PrintRawRouter reads the live router and is not part of this. Memory used by a Handler() that panics is not shown in the model."
  },
  {
   "property": "C93",
   "status": "partial",
   "theorems": [
    "C93_handlers_at_the_call_refuted",
    "C93_handlers_at_the_call_partial",
    "C93_no_writes_partial",
    "C93_middleware_at_the_call"
   ],
   "note": "False for GET, ..., ANY: they keep the slice itself, so a write to it before Handler() replaces the handler, even by nil, which registration refuses (refuted, zx_nil_ok). Proved: exact for every program that does not write to such a cell, and for everything but handlers of routes in every program. st_hit is a ghost flag set by such a write. WithNoFoundHandlers reads its slice when Handler() is called."
  },
  {
   "property": "C94",
   "status": "proved",
   "theorems": [
    "C94_client_slices_untouched"
   ],
   "note": "Proved for every program and cell."
  },
  {
   "property": "C95",
   "status": "partial",
   "theorems": [
    "C95_kept_context_refuted",
    "C95_goroutines_stay_home_partial",
    "C95_as_if_alone_partial",
    "C95_response_partial",
    "C95_no_static_router_partial",
    "C95_no_params_partial"
   ],
   "note": "The full statement is false: after its request has ended the context is reused, and a goroutine that kept it writes into another client's response (C95_kept_context_refuted). Proved: it holds if goroutines use the Context only until their request has ended; calls on a Context are atomic steps."
  },
  {
   "property": "C96",
   "status": "partial",
   "theorems": [
    "C96_tags_refuted",
    "C96_conditional_partial",
    "C96_one_answer",
    "C96_if_match_partial",
    "C96_other_version_partial",
    "C96_if_range_partial"
   ],
   "note": "The full statement is false: the tags have no quotation marks, so net/http never takes one for current (C96_tags_refuted: If-Match with the current tag gets 412, If-Range with it the whole file, lists with it in If-None-Match the content). Proved: the exact answer for every combination of the headers, where a star only occurs alone, with the date of 412 and content replies and the absence of Content-Type, Content-Length and Last-Modified from 304. net/http's checks (fs.go) are modelled; the sending of content or ranges, and the parsing of dates, are parameters."
  },
  {
   "property": "C97",
   "status": "proved",
   "theorems": [
    "C97_broken",
    "C97_closed",
    "C97_bodybytes",
    "C97_twice"
   ],
   "note": "The reader of net/http and the form parser are outside the code: a body is its bytes and how it ends (in memory, on the wire, broken off, closed)."
  },
  {
   "property": "C98",
   "status": "partial",
   "theorems": [
    "C98_partial",
    "C98_one_answer",
    "C98_method_refuted",
    "C98_capitals_refuted",
    "C98_error_refuted"
   ],
   "note": "False as stated: an upload in a request with another method than POST, PUT, PATCH (C98_method_refuted) or with capitals in its Content-Type (C98_capitals_refuted) gets into the values of Query once FormFile was called, and a malformed query makes Query panic only if it comes first (C98_error_refuted). Proved for all requests without errors whose type water and net/http read alike, for every sequence of calls (C98_partial, C98_one_answer)."
  },
  {
   "property": "C99",
   "status": "partial",
   "theorems": [
    "C99_partial",
    "C99_water",
    "C99_refuted"
   ],
   "note": "False as stated: FormFile goes to net/http, which uses 32 MB (C99_refuted). Proved: the exact number for every sequence of calls in a request without errors, where the body is parsed at most once (C99_partial); in all requests, the configured number if neither FormFile nor FormValue is called (C99_water)."
  },
  {
   "property": "C100",
   "status": "partial",
   "theorems": [
    "C100_replies",
    "C100_one_answer",
    "C100_partial",
    "C100_index_refuted",
    "C100_index_never",
    "C100_serve_file_behind"
   ],
   "note": "False as stated: a request whose path ends in /index.html is redirected to ./ and one with a .. element is refused, whatever the name of the file (C100_index_refuted, C100_index_never). Proved: the reply to every request, case by case (C100_replies; C100_one_answer: exactly one case applies); the file is sent for all other paths (C100_partial); ServeFile behind other handlers (C100_serve_file_behind). http.ServeFile is modelled from its source; serveContent and directory listings are parameters."
  },
  {
   "property": "C101",
   "status": "partial",
   "theorems": [
    "C101_nested_partial",
    "C101_partial",
    "C101_context",
    "C101_refuted",
    "C101_plain"
   ],
   "note": "False as stated: a handler of the inner engine that writes to ctx.ResponseWriter without a status gets a Content-Type guessed from its first piece when mounted, and a status after one that net/http refused is lost (C101_refuted). Proved: the same ending and response for every run of the inner engine that sends a status before data and none after a refused one (C101_partial; from any unwritten outer Context: C101_nested_partial), in particular for all engines whose handlers write through their Context (C101_context). C101_plain: the model of the outer engine is the one of Engine.v when nothing is mounted. Both engines use the same type of Environ values; the outer handlers before the mounted engine are covered by C101_nested_partial only."
  },
  {
   "property": "C102",
   "status": "partial",
   "theorems": [
    "C102_value_refuted",
    "C102_other_cookie_refuted",
    "C102_kept_partial",
    "C102_partial",
    "C102_typed",
    "C102_absent_partial"
   ],
   "note": "False as stated: bytes that cookies cannot carry are dropped from the value (C102_value_refuted), and Cookie can return a cookie of another name: any for the empty name, and one whose name begins with a no-break space, which net/http trims (C102_other_cookie_refuted). Proved: what comes back is the value without those bytes (C102_kept_partial), so the value itself if it has none (C102_partial); numbers and booleans (C102_typed); no cookie of that name (C102_absent_partial); other cookies have names in printable ASCII. The client is RFC 6265, 5.2 and 5.4 (CookieSpec.v); net/http cookies are modelled from the source of Go 1.15."
  },
  {
   "property": "C103",
   "status": "proved",
   "theorems": [
    "C103_attributes",
    "C103_printable",
    "C103_sent",
    "C103_empty_line"
   ],
   "note": "All of it (C103_attributes, C103_printable, C103_sent). A name that is no token gives an empty Set-Cookie line, which is sent and which clients ignore (C103_empty_line). The warnings that net/http logs are left out."
  },
  {
   "property": "C104",
   "status": "partial",
   "theorems": [
    "C104_every_query",
    "C104_determined",
    "C104_every_pairs",
    "C104_form",
    "C104_getters",
    "C104_map_partial",
    "C104_served",
    "C104_bind"
   ],
   "note": "All but QueryMap in full, which also takes names like key[x]rest (C29_map_refuted); without such names it is exact (C104_map_partial). C104_form, C104_getters: the first getter of a chain; C104_served: every form that any handler of any chain sees. Over a model of net/url ParseQuery and net/http ParseForm (Go 1.15, where ; separates pairs too); every text is a query of the specification, so no hypothesis excludes one (C104_every_query), and all pairs can be sent (C104_every_pairs)."
  },
  {
   "property": "C105",
   "status": "proved",
   "theorems": [
    "C105_body_first",
    "C105_multipart_last",
    "C105_malformed",
    "C105_malformed_again",
    "C105_served"
   ],
   "note": "All of it. mime.ParseMediaType and the multipart reader are parameters (media, read_form); the request body of a server is never nil."
  },
  {
   "property": "C106",
   "status": "partial",
   "theorems": [
    "C106_location",
    "C106_page",
    "C106_rfc_partial",
    "C106_rfc_refuted",
    "C106_query_only_refuted",
    "C106_fragment_refuted",
    "C106_sibling_refuted",
    "C106_same_host_partial",
    "C106_same_host_refuted",
    "C106_served"
   ],
   "note": "The Location and page in full (C106_location, C106_page, C106_served), over a model of http.Redirect and of what net/url takes for local (Go 1.15); the host of an authority is a parameter. Not another host: for well-formed references only (C106_same_host_partial); a target with a tab or a malformed escape is sent as it is and can lead away (C106_same_host_refuted). RFC 3986: without empty segments and final dot segments (C106_rfc_partial, C106_rfc_refuted); not for a query alone, a fragment with slashes, or a relative target below a path that had escapes (C106_query_only_refuted, C106_fragment_refuted, C106_sibling_refuted)."
  },
  {
   "property": "C107",
   "status": "partial",
   "theorems": [
    "C107_target",
    "C107_every",
    "C107_served_partial",
    "C107_rest_partial",
    "C107_slash_refuted",
    "C107_empty_refuted"
   ],
   "note": "For values without a slash, the last one not empty (C107_served_partial), and for the rest of the path in a named catch-all with its slashes (C107_rest_partial), over a model of how net/http makes the path out of the target (Go 1.15). A value with a slash does not arrive even if it is sent as %2F, since routing goes by the decoded path (C107_slash_refuted), nor does an empty value at the end, since a final slash is dropped (C107_empty_refuted). The parsing of an authority is a parameter; CONNECT is left out."
  },
  {
   "property": "C108",
   "status": "proved",
   "theorems": [
    "C108_installed",
    "C108_rendered",
    "C108_page",
    "C108_default"
   ],
   "note": "All of it, for SetRender called between requests. A Render is any program over the Context; templates themselves are its business."
  },
  {
   "property": "C109",
   "status": "partial",
   "theorems": [
    "C109_static_partial",
    "C109_attachments_partial",
    "C109_static_file_partial",
    "C109_serve_file_partial",
    "C109_conditional_partial",
    "C109_one_reply",
    "C109_bytes",
    "C109_odd_refuted"
   ],
   "note": "Refuted for the last 0 bytes, for the last bytes of an empty file (both are a part, with a Content-Range that is none), for numbers of 64 bits and for other units than bytes (both 416), and in Go 1.15 for minus signs. Proved for all other Range headers of RFC 7233 in requests without conditions, and with conditions for static routes with tags, where stars in If-Match and If-None-Match only occur alone, and that nothing else is sent whatever the header, from Go 1.16 on. Also for StaticFile, File and ServeFile. Missing: reads that fail."
  },
  {
   "property": "C110",
   "status": "partial",
   "theorems": [
    "C110_static",
    "C110_static_file",
    "C110_handlers_partial",
    "C110_route_partial",
    "C110_params_partial"
   ],
   "note": "For static routes and StaticFile all of it, for files that do not change between the requests and lists of directories that are the same for both. For other routes: handlers must not use Params where these are not exact (static router, inner regular expressions) nor FullPath where several routes fit. Missing: the Content-Length that net/http adds to short replies to GET."
  },
  {
   "property": "C111",
   "status": "proved",
   "theorems": [
    "C111_form",
    "C111_every_form",
    "C111_determined",
    "C111_too_much",
    "C111_cut_off",
    "C111_spoilt",
    "C111_other_type",
    "C111_broken",
    "C111_calls",
    "C111_query",
    "C111_saved"
   ],
   "note": "Parts without Content-Transfer-Encoding, boundaries without spaces, no text before the first boundary, lines that end with CR LF; names without line ends. Temporary files can be written. Bodies that are cut off, or have spoilt boundary lines, are errors."
  },
  {
   "property": "C112",
   "status": "proved",
   "theorems": [
    "C112_attachments",
    "C112_serve_file",
    "C112_determined",
    "C112_attachments_any",
    "C112_serve_file_any",
    "C112_any_determined"
   ],
   "note": "The library function http.ServeContent is modelled (NetServe.v, NetRange.v). GET and HEAD; no Content-Encoding or Content-Type set before. C112_attachments and C112_serve_file: conditions in the form that RFC 7232 gives them. The theorems with _any: whatever the headers hold, well-formed or not. Compare C96: the tags that the static routes set themselves are not quoted and never match."
  },
  {
   "property": "C113",
   "status": "partial",
   "theorems": [
    "C113_refuted",
    "C113_told_partial",
    "C113_behind_partial",
    "C113_text_partial",
    "C113_json_partial",
    "C113_determined"
   ],
   "note": "False as stated, because the helpers set the type too late (C20): String with <script>... is delivered as text/html and HTMLRaw with <h2>... as text/plain (C113_refuted). Proved: exactly which replies are delivered as text/html and as text/xml, exactly which replies without control characters are delivered as text/plain, and that none is delivered as JSON, XML, SVG, a script or a style sheet (C113_told_partial, C113_behind_partial); so text that begins with no tag is no page (C113_text_partial), and JSON is text/plain unless the bytes 34 and 35 are LP, which makes it a font (C113_json_partial). http.DetectContentType is modelled after Go 1.15 (NetSniff.v)."
  },
  {
   "property": "C114",
   "status": "partial",
   "theorems": [
    "C114_refuted",
    "C114_parentheses_refuted",
    "C114_accepts_partial",
    "C114_captures_partial",
    "C114_anchored_partial",
    "C114_grouped_partial",
    "C114_run_partial",
    "C114_route_partial",
    "C114_one_reading",
    "C114_stray",
    "C114_digits_partial"
   ],
   "note": "False as stated: the expression is searched for anywhere in the segment, so /u/<id ~ ([0-9]+)> serves /u/x12y with id=12 (C114_refuted); and as names are counted against parentheses, an expression with (?:...) is registered and takes nothing (C114_parentheses_refuted). Proved: a segment takes exactly the request segments with a part that the expression describes, if groups and names are equally many (C114_accepts_partial); the names get the groups of the part that begins first (C114_captures_partial); between ^ and $, without alternatives outside of parentheses, exactly the request segments that the expression describes are taken (C114_anchored_partial), and one group around everything gets the whole (C114_grouped_partial); not anchored, a group around a repeated class gets the first run, all of it (C114_run_partial); for example digits (C114_digits_partial); the requests that fit a route have such parts (C114_route_partial). Package regexp is modelled in NetRegexp.v without flags, lazy and counted repetitions, repetitions of what may be empty or holds groups, word boundaries, Unicode classes and bytes beyond ASCII in expressions. An expression with a stray parenthesis is refused (C114_stray). Characters of request segments are those of RFC 3629."
  },
  {
   "property": "C115",
   "status": "partial",
   "theorems": [
    "C115_connection",
    "C115_open",
    "C115_served",
    "C115_value",
    "C115_interim_refuted",
    "C115_api"
   ],
   "note": "False for handlers that answer with a status from 100 to 199 (other than 101), as ctx.WriteHeader lets them: the client takes the next reply on the connection for the answer (C115_interim_refuted). Proved: the replies of a connection are read as they were written, and in no other way (C115_connection; C115_served for the requests that ServeHTTP served with handlers as described; C115_api: handlers that are written with the helpers of the package \u2014 String, Data, HTMLRaw, JSON, XML, Stream, MovedPermanently, Found, Abort, NoCache, SetCookie \u2014 and the middleware Recovery, Logger and CORS are such handlers); a value with line ends is sent in one line, with blanks in their place, and a value without is sent as it is (C115_value); every request is answered if nobody asks to close the connection (C115_open). Date, Content-Length, Connection and Transfer-Encoding are the server's, and replies with 304 have no Content-Type. The server is that of net/http 1.15 without Flush, Hijack, trailers and failing writes (NetFrame.v). Header names with other bytes than RFC 7230 lets names have are excluded: net/http 1.15 sends them as they are."
  },
  {
   "property": "C116",
   "status": "proved",
   "theorems": [
    "C116_short",
    "C116_panic",
    "C116_api"
   ],
   "note": "Of replies to HEAD and of the statuses 204 and 304 there is no body that could be cut; they are excluded. Requests over HTTP/1.0, whose replies would end with the connection, are refused by ServeHTTP before any handler runs. C116_api: the same for handlers that are written with the helpers of the package."
  },
  {
   "property": "C117",
   "status": "proved",
   "theorems": [
    "C117_static",
    "C117_any",
    "C117_declared",
    "C117_proper",
    "C117_attachments",
    "C117_attachments_proper"
   ],
   "note": "C117_static: the whole file. C117_any: every condition and range, for files that are not empty and the range parser of Go 1.16 (with Go 1.15 an empty file or an odd range can break the length, C109); lengths are below 2^63. C117_attachments: the whole file of Download or Attachment, if nothing else is written to the body. C117_declared: any handler that sets Content-Length. All handlers are supposed to give their headers proper names, to leave Transfer-Encoding and Trailer alone and not to send an interim status; those of static routes do (C117_proper, C117_attachments_proper), if http.ServeFile, which replies for directories, does. The framing is that of net/http 1.15 (C115)."
  },
  {
   "property": "C118",
   "status": "proved",
   "theorems": [
    "C118_measured"
   ],
   "note": "C118_measured. Requests other than HEAD, statuses that take a body, handlers as in C117_declared that return without a panic. The framing is that of net/http 1.15 (C115)."
  },
  {
   "property": "C119",
   "status": "proved",
   "theorems": [
    "C119_handlers",
    "C119_files"
   ],
   "note": "C119_handlers: handlers as in C110_handlers_partial that leave the framing to the server (C115). C119_files: files that are not empty, the range parser of Go 1.16, lengths below 2^63 (C117_any). The lines compared are those whose names do not belong to the server (Date, Content-Length, Connection, Transfer-Encoding); for large bodies GET is sent in chunks and HEAD has no length. The framing is that of net/http 1.15."
  },
  {
   "property": "C120",
   "status": "partial",
   "theorems": [
    "C120_listing_partial",
    "C120_serve_file_partial",
    "C120_static_partial",
    "C120_one_reading",
    "C120_links_refuted"
   ],
   "note": "The library functions (dirList of net/http, URL.String of net/url) are modelled in NetDir.v. Partial: addresses are proved right for names in which no & stands before a letter or digit; C120_links_refuted: net/http does not escape & in addresses, so that a file a&lt;b gets a link to a<b, and if index.html is itself a directory its entries are shown with addresses in the directory above. Texts and order hold for all names. Bytes that HTML readers themselves replace (NUL, carriage return) are taken as they are. C120_static_partial: what a static route without index file lists is the directory of that name which the process sees, not the folder of the route (compare C39_listing_refuted)."
  },
  {
   "property": "C121",
   "status": "partial",
   "theorems": [
    "C121_written",
    "C121_read",
    "C121_all_read",
    "C121_one_moment",
    "C121_revisit_partial",
    "C121_static_partial",
    "C121_static_file_partial",
    "C121_attachments_partial",
    "C121_serve_file_partial",
    "C121_old_forms",
    "C121_one_answer"
   ],
   "note": "The library functions (Time.Format and Parse with http.TimeFormat, http.ParseTime) are modelled in NetDate.v, from their documented behaviour. C121_revisit_partial is for static routes with tags, by C96; the other theorems about replies are for all static routes, StaticFile, downloads, attachments and ServeFile. Partial: what is sent for a Range has the limits of C109; a request has no other condition; dates in the two old forms (RFC 850, for the years 1969 to 2068, and ANSI C; NetDateOld.v) are shown to be read as they mean, but not what else is read as one; names of zones other than GMT and UTC are a parameter; in C121_revisit_partial both old forms are; years outside 0 to 9999 are excluded."
  }
 ]
}