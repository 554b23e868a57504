{"claims": [
 {"property": "C01", "status": "proved", "theorems": ["C01_apply_propagates"], "note": "all outputs, callbacks and modes"},
 {"property": "C02", "status": "proved", "theorems": ["C02_preview_no_callback"], "note": "the callback's calls are observable in the model; non-interference in preview"},
 {"property": "C03", "status": "proved", "theorems": ["C03_output_all"], "note": "positional and keyword forms, any arguments"},
 {"property": "C04", "status": "proved", "theorems": ["C04_secret_unsecret"], "note": ""},
 {"property": "C05", "status": "partial", "theorems": ["C05_from_input_deep_partial", "C05_from_input_resolves", "C05_empty_input_type_refuted"], "note": "full characterisation for every nesting; refuted for an input type without fields; shape of an input type with unknown fields in a preview is lost (value None, not known)"},
 {"property": "C06", "status": "proved", "theorems": ["C06_lifted_access"], "note": ""},
 {"property": "C07", "status": "partial", "theorems": ["C07_apply_laws_partial", "C07_left_identity", "C07_assoc_raising_refuted", "C07_identity_update_refuted"], "note": "laws hold for callbacks that return; a raising callback breaks associativity of secretness, and identity turns a not-known output known in an update"},
 {"property": "C08", "status": "partial", "theorems": ["C08_failing_apply_partial", "C08_keeps_secretness_refuted"], "note": "everything resolves with the error, but the secretness of the source is dropped by the code"},
 {"property": "C09", "status": "partial", "theorems": ["C09_merge_outputs_partial", "C09_merge_metadata_refuted"], "note": "the code ignores the first output's knownness and secretness"},
 {"property": "C10", "status": "proved", "theorems": ["C10_plain_round_trip"], "note": "no name translation or an identity one; any flags"},
 {"property": "C11", "status": "proved", "theorems": ["C11_secret_travels"], "note": ""},
 {"property": "C12", "status": "partial", "theorems": ["C12_secrets_bubble_partial", "C12_refuted"], "note": "both directions for every message without output values; a secret nested in an output value is left as a raw marker in a non-secret Output"},
 {"property": "C13", "status": "partial", "theorems": ["C13_unknown_no_leak_partial", "C13_refuted"], "note": "non-interference; refuted for hidden resources when output values are in use and for unserialisable hidden values"},
 {"property": "C14", "status": "proved", "theorems": ["C14_property_dependencies"], "note": ""},
 {"property": "C15", "status": "partial", "theorems": ["C15_assets_round_trip_partial", "C15_refuted"], "note": "refuted for archive members starting with two underscores and under a name translation"},
 {"property": "C16", "status": "proved", "theorems": ["C16_sentinel_uniform", "C16_protocol_texts"], "note": ""},
 {"property": "C17", "status": "partial", "theorems": ["C17_keep_unknowns_partial", "C17_refuted"], "note": "keep_unknowns is not passed inside secrets"},
 {"property": "C18", "status": "partial", "theorems": ["C18_internal_keys_partial", "C18_refuted"], "note": "exact at the top level; nested internal keys are always dropped"},
 {"property": "C19", "status": "proved", "theorems": ["C19_contains_unknowns"], "note": "Object graphs with integer addresses; termination as a bound on the nesting depth."},
 {"property": "C20", "status": "proved", "theorems": ["C20_none_omitted"], "note": ""},
 {"property": "C21", "status": "proved", "theorems": ["C21_names_translated"], "note": ""},
 {"property": "C22", "status": "proved", "theorems": ["C22_resource_references"], "note": ""},
 {"property": "C23", "status": "proved", "theorems": ["C23_output_values"], "note": ""},
 {"property": "C24", "status": "proved", "theorems": ["C24_register_resolves"], "note": "preparing and building the request are arbitrary results or exceptions"},
 {"property": "C25", "status": "partial", "theorems": ["C25_read_resolves_partial", "C25_refuted"], "note": "false when a response arrives but cannot be decoded or lacks a field (refuted); proved otherwise"},
 {"property": "C26", "status": "proved", "theorems": ["C26_resolution_precedence"], "note": "property maps with distinct translated names and without the reserved secret key"},
 {"property": "C27", "status": "proved", "theorems": ["C27_cycle_breaker"], "note": "all histories, any set iteration order"},
 {"property": "C28", "status": "proved", "theorems": ["C28_dependencies"], "note": "any set iteration order; children fixed during the expansion"},
 {"property": "C29", "status": "proved", "theorems": ["C29_aliases"], "note": "names whose URN parses back (C30)"},
 {"property": "C30", "status": "proved", "theorems": ["C30_urn_parts"], "note": ""},
 {"property": "C31", "status": "partial", "theorems": ["C31_create_urn_partial", "C31_refuted"], "note": "refuted for parent names containing the separator"},
 {"property": "C32", "status": "partial", "theorems": ["C32_inherited_alias_partial", "C32_refuted"], "note": "refuted for alias names containing the separator"},
 {"property": "C33", "status": "proved", "theorems": ["C33_provider_selection"], "note": "For types whose package is not the empty string. The constructor of dependency resources is not modelled."},
 {"property": "C34", "status": "proved", "theorems": ["C34_inheritance"], "note": "A component's `provider` option counts for the package of the component's own type, as in the code (see DESIGN findings)."},
 {"property": "C35", "status": "partial", "theorems": ["C35_transformations_partial", "C35_refuted"], "note": "Proved for programs that register stack transformations before creating resources; refuted in general: a stack transformation registered after a component was created is not run for later children of that component."},
 {"property": "C36", "status": "proved", "theorems": ["C36_merge"], "note": "list options are lists; depends_on compared by the list it comes to"},
 {"property": "C37", "status": "partial", "theorems": ["C37_instance_merge_partial", "C37_refuted"], "note": "false: the second merge of a chain is bound to the first object (refuted); proved for one merge"},
 {"property": "C38", "status": "partial", "theorems": ["C38_invoke_merge_partial", "C38_refuted"], "note": "false: the default version \"\" erases the left operand's version (refuted); proved for fields that are None"},
 {"property": "C39", "status": "proved", "theorems": ["C39_registry", "C39_modules"], "note": "semver parsing is an arbitrary function; compatibility is the code's (see C40)"},
 {"property": "C40", "status": "partial", "theorems": ["C40_check_version_partial", "C40_refuted"], "note": "false for a higher minor with a lower patch and for prereleases (refuted)"},
 {"property": "C41", "status": "partial", "theorems": ["C41_wait_partial", "C41_refuted"], "note": "Every interleaving of starting, ending and resuming RPCs with the waiting task (cancellation not modelled). Refuted: the exception raised is that of the RPC being awaited, which may not be the first that failed."},
 {"property": "C42", "status": "partial", "theorems": ["C42_features_partial", "C42_refuted"], "note": "All interleavings of queries. Refuted only for overlapping queries to an engine that contradicts itself (the later reply replaces the cached one)."},
 {"property": "C43", "status": "partial", "theorems": ["C43_lookup_partial", "C43_refuted"], "note": "int, float and json.loads are arbitrary functions. Refuted: a value that is the JSON document null counts as missing for require_object."},
 {"property": "C44", "status": "partial", "theorems": ["C44_variables_partial", "C44_refuted"], "note": "Exact characterisation of the keys sharing a variable; distinct for keys of small letters, digits and colons; refuted in general (api-key / api_key)."},
 {"property": "C45", "status": "proved", "theorems": ["C45_replace_all", "C45_set_one"], "note": "Several contexts sharing the default dict; holds until the context is copied or changed."},
 {"property": "C46", "status": "partial", "theorems": ["C46_export_partial", "C46_refuted"], "note": "Proved for graphs with string dict keys and plain data without sharing; refuted: an object occurring twice is exported as None the second time, and dicts with other keys raise."},
 {"property": "C47", "status": "partial", "theorems": ["C47_stack_outputs_partial", "C47_refuted"], "note": "Proved when the exports can be converted; refuted otherwise: nothing is registered and the program's exception is lost."},
 {"property": "C48", "status": "proved", "theorems": ["C48_stack_reference", "C48_not_known"], "note": "Stack outputs without Outputs or unknowns inside; the list of secret names is None or a list of strings."},
 {"property": "C49", "status": "partial", "theorems": ["C49_mocks_partial", "C49_no_failures_refuted"], "note": "All histories; getResource and function results read back for plain data. Refuted: a call mock returning (ret, None), as its type allows, raises TypeError."},
 {"property": "C50", "status": "partial", "theorems": ["C50_isolation_partial", "C50_progress", "C50_refuted"], "note": "Isolation, mutual exclusion and absence of lost wake-ups for all interleavings and cancellations. Refuted: a failed resource operation of one request makes every later request fail."},
 {"property": "C51", "status": "partial", "theorems": ["C51_inputs_partial", "C51_inputs_given", "C51_refuted"], "note": "Refuted for inputs holding Outputs: the recorded dependencies are dropped."},
 {"property": "C52", "status": "proved", "theorems": ["C52_construct_response", "C52_call_response", "C52_sent"], "note": ""},
 {"property": "C53", "status": "proved", "theorems": ["C53_invoke", "C53_sent", "C53_invoke_data", "C53_call_request", "C53_call_output"], "note": "An empty result is returned as None. call's Output for results whose resource references carry string ids."},
 {"property": "C54", "status": "proved", "theorems": ["C54_declared", "C54_stored", "C54_to_dict", "C54_from_dict"], "note": "Classes without declared base classes; declarations whose names do not clash."},
 {"property": "C55", "status": "proved", "theorems": ["C55_translate"], "note": "numbers are integers; key collisions after name translation excluded"},
 {"property": "C56", "status": "partial", "theorems": ["C56_flags_partial", "C56_numbers", "C56_verbosity_refuted", "C56_message_refuted"], "note": "Every flag has exactly the values asked for, for all four operations and all options. Refuted: any log_verbosity is passed as an int and fails before the CLI is run; a supplied string equal to --non-interactive suppresses the flag."},
 {"property": "C57", "status": "partial", "theorems": ["C57_round_partial", "C57_others", "C57_refuted"], "note": "Settings survive exactly if their strings and configuration are not empty and configuration values are strings or secrets (iff, proved). Refuted for numbers, structured values, empty strings."},
 {"property": "C58", "status": "proved", "theorems": ["C58_classified", "C58_unique", "C58_conflict"], "note": "for every CLI program, argument list, output, exit code and callback that does not raise"},
 {"property": "C59", "status": "partial", "theorems": ["C59_workspace_partial", "C59_refused", "C59_refuted"], "note": "For every output of the version command that is not blank. Refuted: blank output gives an IndexError even when opted out."},
 {"property": "C60", "status": "proved", "theorems": ["C60_create_or_select", "C60_create", "C60_select", "C60_failures"], "note": "Stack names without blanks and line ends; the CLI's messages as in pkg/backend/backend.go and pkg/cmd/pulumi/stack_select.go."},
 {"property": "C61", "status": "partial", "theorems": ["C61_runs_partial", "C61_outcome", "C61_idle", "C61_refuted"], "note": "All sequences of runs on any threads with any endings. Refuted for a later run on the same thread: without configuration it sees its predecessor's; without secret keys it sees its predecessor's secret keys."},
 {"property": "C62", "status": "partial", "theorems": ["C62_order_partial", "C62_complete_partial", "C62_refuted"], "note": "All interleavings in which the watcher looks only when the log ends at a line end. Refuted otherwise: reading part of a line kills the watcher thread."},
 {"property": "C63", "status": "proved", "theorems": ["C63_lines", "C63_lines_unique"], "note": "also when the callback raises; lines lose their trailing white space before being reported and kept"},
 {"property": "C64", "status": "partial", "theorems": ["C64_history_partial", "C64_carried_partial", "C64_answers_partial", "C64_unknown_refuted", "C64_read_refuted"], "note": "All histories of a resource with any failures, providers and server processes. Refuted for an unknown provider: check and diff raise TypeError instead of using the old one; and for a read that reports no outs."},
 {"property": "C65", "status": "proved", "theorems": ["C65_provider_references"], "note": ""},
 {"property": "C66", "status": "proved", "theorems": ["C66_order", "C66_safe", "C66_round", "C66_wait", "C66_progress"], "note": "All interleavings of callbacks, nested waits to any depth, other threads; together with the part of CPython's event loop it relies on."},
 {"property": "C67", "status": "proved", "theorems": ["C67_bags"], "note": ""},
 {"property": "C68", "status": "partial", "theorems": ["C68_invoke_provider_partial", "C68_refuted"], "note": "Proved when an options object is reused only for functions of the same package; refuted otherwise: the first call stores the parent's provider in the options object."},
 {"property": "C69", "status": "partial", "theorems": ["C69_settings_partial", "C69_leak_refuted", "C69_mocks_refuted"], "note": "Contexts that were configured read their own values. Refuted: contexts never configured see others' values; set_mocks(project, stack) is not seen by mock monitor threads."},
 {"property": "C70", "status": "partial", "theorems": ["C70_project_partial", "C70_others", "C70_refuted"], "note": "Projects with string settings only. Refuted for projects with runtime options, template or backend objects: the saved file cannot be loaded."},
 {"property": "C71", "status": "partial", "theorems": ["C71_decoded_partial", "C71_others", "C71_refuted"], "note": "All events of all kinds; refuted for streamID, resourceUrn and detailedDiff, which are looked up under wrong names and always shown as None."},
 {"property": "C72", "status": "partial", "theorems": ["C72_text_partial", "C72_room", "C72_refuted"], "note": "All providers, as trees without sharing, and all sequences. Refuted: every serialisation nests one more sorting wrapper around the pickler's method for good, so after as many as the recursion limit none works; the caller's dict is changed and cannot be used again."},
 {"property": "C73", "status": "proved", "theorems": ["C73_text", "C73_refusal", "C73_read"], "note": "Strings of characters up to 255 and integers; dict keys are strings. The library json module is modelled (written by its documentation), the grammar of RFC 8259 is the specification."},
 {"property": "C74", "status": "partial", "theorems": ["C74_history_partial", "C74_works", "C74_refuted"], "note": "All values and histories, against a model of the CLI's config commands (pkg/cmd/pulumi/config.go). Refuted for keys containing = or beginning with - or a quote, for two keys of a map that denote one variable, and for removing an empty list of keys."},
 {"property": "C75", "status": "partial", "theorems": ["C75_history_partial", "C75_pages_partial", "C75_info_partial", "C75_default_refuted", "C75_refuted"], "note": "Against a model of the CLI's stack history (pkg/cmd/pulumi/stack_history.go). Partial: finished updates; secrets shown or absent; at most ten updates without a page size. Refuted otherwise: only ten updates are given, and the call raises KeyError for an update in progress or a secret not shown."},
 {"property": "C76", "status": "partial", "theorems": ["C76_outputs_partial", "C76_refuted"], "note": "Whatever others do between the two commands while these outputs remain. Refuted for an output that reads [secret], for secrets inside lists and maps, and for outputs changed between the two commands."},
 {"property": "C77", "status": "proved", "theorems": ["C77_stacks", "C77_current"], "note": "Against a model of pulumi stack ls (pkg/cmd/pulumi/stack_ls.go)."},
 {"property": "C78", "status": "partial", "theorems": ["C78_plugins_partial", "C78_refuted"], "note": "Against a model of pulumi plugin ls. Refuted: the declared attribute last_used_time is never set, and a plugin that was never used makes the call raise."},
 {"property": "C79", "status": "partial", "theorems": ["C79_export", "C79_import_partial", "C79_round_trip", "C79_refuted"], "note": "Against a model of the CLI's stack export and stack import, which reads the file the SDK wrote. Partial: no file is left behind only when the import succeeds. Refuted otherwise: every failed import leaves a file with the whole state and its secrets in plaintext."},
 {"property": "C80", "status": "partial", "theorems": ["C80_first_use_partial", "C80_reuse_partial", "C80_reuse_refuted", "C80_empty_refuted"], "note": "Partial: options objects that were not passed to an earlier call; with reused ones only the inline program, the local directory and what the user wrote in the options are kept. Refuted: a reused options object gives the second inline stack the first one's project, gives a local stack the inline program and overwrites its project file; work_dir='' opens a new directory."},
 {"property": "C81", "status": "partial", "theorems": ["C81_engine_receives_partial", "C81_refuted"], "note": "Partial: values other than those of C81_refuted, with distinct names of entries and classes whose properties are declared once. Refuted: strings equal to a placeholder arrive as unknown; maps with the reserved key are rejected or taken for something else; an empty string asset is an error and an empty file archive stops the engine; an unknown secret output sent without output values is not secret."},
 {"property": "C82", "status": "partial", "theorems": ["C82_program_sees_partial", "C82_refuted"], "note": "Partial: values other than those of C82_refuted, and unknowns are not kept outside of previews (C17). Refuted: unknown values that are not strings are seen as strings; assets of which only the digest is known are an error; members of an archive with two leading underscores are lost."},
 {"property": "C83", "status": "partial", "theorems": ["C83_run_partial", "C83_refuted"], "note": "Partial: texts that do not start with a minus sign; a configuration, or none in the environment; keys other than the one named like the variable of the secret keys; characters up to 255. Refuted: a stack named -dev cannot be run; arguments that look like options change stack and preview mode; '--' is taken away; an empty configuration is replaced by that of the environment; secret:keys reads as the list of secret keys."},
 {"property": "C84", "status": "partial", "theorems": ["C84_ending_reported_partial", "C84_refuted"], "note": "Partial: exit codes between 0 and 255 other than 32, sys.exit in the program itself, no help option. Refuted: sys.exit(256) is a success; sys.exit(32) ends with no message at all; sys.exit() in an apply is a success with RPCs outstanding; with an argument --help the program is not run and success is reported."},
 {"property": "C85", "status": "partial", "theorems": ["C85_virtualenv_partial", "C85_no_virtualenv", "C85_refuted"], "note": "Partial: no variables that differ from PATH or PYTHONHOME only in case. Refuted: Path is taken for PATH, which then stays unset; PythonHome is removed. Not on Windows; paths are joined without cleaning."},
 {"property": "C86", "status": "partial", "theorems": ["C86_registration_partial", "C86_reading_partial", "C86_refuted"], "note": "Partial: the providers a remote component sends are its own, if it has one, else the given ones; aliases are known; an id is not a secret; names in ignore_changes and replace_on_changes are translated as whole names; no other resource is declared while this one expands its dependencies. Refuted: providers for other packages are lost when a remote component has one for its own; paths to properties are not translated; an alias that is not known makes the registration fail; a resource cannot be read by a secret id."},
 {"property": "C87", "status": "partial", "theorems": ["C87_components_partial", "C87_stands_for_partial", "C87_failure_partial", "C87_refuted"], "note": "Partial: components in which no constructor raised after its transformations had run. Refuted: a constructor that raises later (provider of another package, aliases, reading a component by id) stays in its parent's set of children without a URN, so that every registration depending on the parent fails with KeyError."},
 {"property": "C88", "status": "partial", "theorems": ["C88_outcome", "C88_lines", "C88_failure", "C88_success", "C88_events_partial", "C88_preview_partial", "C88_clean_partial", "C88_serving", "C88_progress", "C88_refuted"], "note": "All schedules and failures. Partial: events and a preview's changes, if the watching thread ends within five seconds, looks between lines (C62) and on_event does not raise; nothing is left behind if the event log could be set up. Refuted otherwise: a successful preview raises RuntimeError and its events come later; a failure to create the log leaves the server running; if the CLI fails early the watching thread never ends."},
 {"property": "C89", "status": "partial", "theorems": ["C89_finished_partial", "C89_ends_once", "C89_failure", "C89_ends", "C89_refuted"], "note": "All histories of any number of RPCs and tasks. Partial: everything finished and succeeded, if no task failed before, and none was started after, the runtime last looked for unfinished work. Refuted: an exception in an apply is lost if RPCs are outstanding when it is raised, and the program is reported successful; a task started by one of the last tasks (an apply within an apply) is abandoned and the program is reported successful."},
 {"property": "C90", "status": "partial", "theorems": ["C90_messages_partial", "C90_no_engine", "C90_refuted"], "note": "All histories; at most once and complete, in order for messages without resource. Partial: messages for resources arrive if the program succeeds, no task failed before and no such message was logged after the runtime last looked for unfinished work. Refuted otherwise."},
 {"property": "C91", "status": "partial", "theorems": ["C91_wrappers", "C91_outputs_partial", "C91_inputs_partial", "C91_refuted"], "note": "Every documented way of wrapping a type is read as that type; values that fit are delivered as objects of the annotated type, and inputs are sent, for all nestings of names, classes, enums, dicts, lists and the wrappers. Partial, as the code does not have the full property. Refuted: a list for a property annotated Union[str, List[str]] is rejected in both directions; Union[str, Dict[str, str]] is read as str, so dicts are rejected; Optional[Output[T]], Input[Optional[T]] and Union[None, T] are not understood."},
 {"property": "C92", "status": "partial", "theorems": ["C92_resource_partial", "C92_decorated_partial", "C92_refuted"], "note": "Proved for all hierarchies in which only the class itself declares properties by annotations and names are used consistently along the bases. Partial, as the code does not have the full property. Refuted: annotations of base classes are ignored; an overridden Pulumi name still sets the attribute; an overridden getter's type wins over an annotation; a class derived from an input or output type cannot be decorated; paths in ignore_changes are not translated."},
 {"property": "C93", "status": "partial", "theorems": ["C93_component_partial", "C93_refuted"], "note": "Everything but the parent, for all requests whose providers are referred to by well-formed references. Partial, as the code does not have the full property. Refuted: the test for an empty parent is inverted, so a parent given by the engine is dropped, and a request without one fails with AttributeError, because a DependencyResource has no transformations."},
 {"property": "C94", "status": "partial", "theorems": ["C94_value_partial", "C94_inputs_partial", "C94_refuted"], "note": "For all mixed values of plain data, assets, awaitables and Outputs, with declared types and resources left to C10, C13 and C15. Refuted: an Output holding a secret Output, sent as an Output, arrives not secret and with the secret marker as its value."},
 {"property": "C95", "status": "partial", "theorems": ["C95_none_lost", "C95_exact_partial", "C95_flat", "C95_unshared", "C95_refuted", "C95_iteration_refuted"], "note": "None is lost: for all values and schedules. Exactness and termination: for all schedules, if Outputs that share a set object depend on the same resources, which is so if no Output holds Outputs or resources in its value, and if no two share a set. Refuted in full: o.apply returning a list with another Output shares o's set, and sending it adds the other's resources to o; sent as an Output at the same time, o fails with RuntimeError."},
 {"property": "C96", "status": "partial", "theorems": ["C96_call_partial"], "note": "Proved for all methods and all arguments and results that mix plain data, awaitables and Outputs, with the engine passing messages on. Missing: resources and declared types in arguments and results, a declared result type, and what C94 leaves out (see C94_refuted)."},
 {"property": "C97", "status": "partial", "theorems": ["C97_outputs_partial", "C97_data_partial", "C97_refuted"], "note": "Proved for every history of the deployment: outputs are accepted for a registered resource that has none yet, and every later lookup shows them; C97_data_partial says so for plain data, awaitables and Outputs. Refuted in general: resources among the outputs are seen as strings, a second registration ends the deployment, outputs given as an Output fail, and a lookup before the registration sees nothing."},
 {"property": "C98", "status": "partial", "theorems": ["C98_recognised_partial", "C98_again", "C98_refuted"], "note": "C98_again is the first sentence in full. C98_recognised_partial covers all refactorings whose changes are told by aliases as Spec_Refactor lists them, with the hypothesis that no URN or alias of a resource means another old resource. Refuted beyond that: aliases of a resource whose parent is given to be the stack, aliases with a project for resources with parents, children whose name starts with their parent's new name, names that are passed on from one resource to another, and aliases with a parent that was itself renamed."},
 {"property": "C99", "status": "partial", "theorems": ["C99_exports_partial", "C99_refuted"], "note": "Proved from end to end: for every history of the exporting deployment, the registered exports are read by every referring program under their names with their values, secretness and the reference as dependency; unknown names give None or KeyError. Missing: exports or nested keys called secretOutputNames and requiring an export that is None (refuted), assets and resources among the exports, and the conversion of objects before export (C46). The state in between is stored, with secrets encrypted, and read again (C100)."},
 {"property": "C100", "status": "partial", "theorems": ["C100_read_back_partial", "C100_cached", "C100_refuted"], "note": "Proved: every state whose values do not use the engine's own marks is stored and read back, for all secrets managers and with secrets shown or not, bulk decryption included; the caching crypter is right over all histories of calls. Missing because false: texts equal to the mark of unknown values and known output values come back as unknown, and an object with the key of kinds makes the state unreadable (C100_refuted). Not modelled: manifest, pending operations, versions before V3."},
 {"property": "C101", "status": "proved", "theorems": ["C101_ciphertexts_only"], "note": "Non-interference of the stored document in the contents of secrets, for all states and all answers of the secrets manager. Encryption itself is outside the model: its answers are given by place."},
 {"property": "C102", "status": "proved", "theorems": ["C102_stored", "C102_answers"], "note": "Non-interference from the values in the program to the stored document, for all deployments, with several components and stacks registering outputs and providers answering with different secrets. The monitor supports secrets (as this engine's does). The inputs of resources and the fields of the state that outputs do not reach are not part of the snapshot modelled."},
 {"property": "C103", "status": "partial", "theorems": ["C103_seen_partial", "C103_read_partial", "C103_refuted"], "note": "Restricted as C74 and C83 are: proper keys, no texts of the request that begin with a minus sign, and a surrounding PULUMI_CONFIG only if there is some configuration; the refutation shows that a program sees the surrounding configuration after the last value is removed, and that a key with = in a map becomes another key. The YAML text of the file is left out."},
 {"property": "C104", "status": "partial", "theorems": ["C104_stored_partial", "C104_refuted"], "note": "For proper keys. Refuted in full: in set_all_config, a key that begins with a quote moves part of the secret value into the key, which is stored in the clear. Failures of the CLI do not depend on its arguments; what the command line itself shows to other processes is outside the model."},
 {"property": "C105", "status": "partial", "theorems": ["C105_exact", "C105_outputs_partial", "C105_refuted"], "note": "C105_exact says exactly what outputs() gives for every export. The property as stated holds unless an export has a secret inside without being secret as a whole, or is the text [secret]; the refutation shows both. The conversion of objects before they are registered (C46), assets and resources are left out."},
 {"property": "C106", "status": "proved", "theorems": ["C106_masked"], "note": "For states that can be stored (C100). The order in which encoding/json prints keys is that of the list in the model."},
 {"property": "C107", "status": "partial", "theorems": ["C107_remove_partial", "C107_refuted"], "note": "Full except for a range without a name, which is taken for a name: the refutation shows that such a call succeeds and removes nothing."},
 {"property": "C108", "status": "partial", "theorems": ["C108_install_partial", "C108_general_partial", "C108_refuted"], "note": "For names of letters, digits and dashes, versions that as a range are only themselves and that do not end with .tmp and digits, and without the legacy search; C108_general_partial is what holds without the latter conditions. The refutation shows a name with an underscore (installed, never found, not removable) and the legacy search. One installation at a time: the lock is not modelled."},
 {"property": "C109", "status": "proved", "theorems": ["C109_export_import"], "note": "Documents are read and written by the CLI's functions, modelled one by one; encoding/json is an argument that reads what it wrote (json_reads). Reading older versions of documents is an argument. No top-level property may have the name of the key that marks secrets (ordinary)."},
 {"property": "C110", "status": "proved", "theorems": ["C110_import_checked", "C110_import_accepts"], "note": "As for C109. The checks of the property are written in Spec_Import (of_stack, cookie, consistent) without the functions of the model. Not modelled: --force."},
 {"property": "C111", "status": "proved", "theorems": ["C111_exclusive", "C111_one_after_another", "C111_alone", "C111_no_lock_left"], "note": "For backends that keep states in files. Saving a state is one step (C113 has the details); an operation whose save fails ends. Cancelling is excluded by no_cancel: it removes the locks of others; the example shows that two are then at work."},
 {"property": "C112", "status": "partial", "theorems": ["C112_refused_partial", "C112_refuted"], "note": "Proved: no step of an operation that ends locked out changes the state. Refuted: the text of that error does not match what create_command_error looks for, so that it is a plain CommandError."},
 {"property": "C113", "status": "partial", "theorems": ["C113_old_or_new_partial", "C113_not_lost_partial", "C113_saved", "C113_persistent", "C113_others", "C113_refuted"], "note": "Refuted when the way of keeping the state is switched with PULUMI_SELF_MANAGED_STATE_GZIP: the file of the other kind is deleted before the new one is written. Proved in all other cases; when switching, the old state is then in the .bak file if it could be copied. Each access to the storage is atomic; files in the bucket are older than those written now."},
 {"property": "C114", "status": "partial", "theorems": ["C114_stacks_partial", "C114_refuted"], "note": "Proved for backends that keep states in files whenever the storage works and all states can be read; C113, C115 and C116 have failures. Commands run one after another (C111). Refuted: names \".\" and \"..\" are accepted, but the files are elsewhere then and such a stack is not listed. The Python side of history() is in C75, that of list_stacks in C77."},
 {"property": "C115", "status": "partial", "theorems": ["C115_refused", "C115_has_resources", "C115_removed_partial", "C115_refuted"], "note": "Refuted: failures to delete are ignored, and if both kinds of files are there, only one is deleted and the other one is read from then on. Proved: an error changes nothing; stacks with resources are kept; the stack is gone if the deletion works and there is one file."},
 {"property": "C116", "status": "partial", "theorems": ["C116_exists_partial", "C116_refuted"], "note": "Refuted: any error while reading the stack counts as there being none, so that a stack whose secrets cannot be decrypted at the moment is replaced by an empty one, and after the next update its state is in no file. Proved when the state can be read."},
 {"property": "C117", "status": "partial", "theorems": ["C117_listed_partial", "C117_refuted"], "note": "Refuted: the names are listed first and the states read afterwards without a lock; if one cannot be read, the whole command fails. Proved while others only create and update stacks and complete between the readings."},
 {"property": "C118", "status": "partial", "theorems": ["C118_no_orphans_partial", "C118_refuted"], "note": "Refuted: (1) if a provider dies after creating a resource, the engine takes the step for failed and removes the note; (2) a resource is marked as pending replacement before it is deleted, and dropped without deleting it if the program then does without it although the deletion failed; (3) the same if its re-creation overtakes its deletion. Proved for all runs without these three. Imports, reads, refreshes and the flag Delete are left out; resources that are retained are no longer the stack's."},
 {"property": "C119", "status": "partial", "theorems": ["C119_recorded_exist_partial", "C119_refuted"], "note": "Refuted: (1) notes of deletions are not taken over by the next update although the record stays; (2) a resource that was deleted in order to be replaced is kept as it is if the program is reverted; (3) a provider dies after deleting. Proved for all runs without these and those of C118."},
 {"property": "C120", "status": "partial", "theorems": ["C120_exact_partial", "C120_refuted"], "note": "Follows from the invariants of C118 and C119; refuted by the first run of C118."},
 {"property": "C121", "status": "partial", "theorems": ["C121_refreshed_partial", "C121_refuted"], "note": "Proved for backends that keep states in files whenever the storage works, for settings files that can be read. Refuted: an update that cannot write its record, or dies before, has changed the state, but the configuration of the update before it is brought back."},
 {"property": "C122", "status": "partial", "theorems": ["C122_own_result_partial", "C122_refuted"], "note": "Refuted: outputs() and info() are commands of their own, run when the lock of the stack is free again; another update in between is reported as one's own. Proved if there is none."},
 {"property": "C123", "status": "partial", "theorems": ["C123_order_partial", "C123_replacement_partial", "C123_refuted", "C123_refuted_pending"], "note": "Proved for the deletions at the end of an operation, for those left over by an earlier one, and within a replacement. Refuted across them: a resource that is deleted to be replaced, or was left over, goes before a resource that relies on it and is deleted at the end."},
 {"property": "C124", "status": "partial", "theorems": ["C124_destroy_partial", "C124_refuted"], "note": "Proved for destroy with and without targets. Refuted for up with targets: a target that has left the program is deleted although an untouched resource relies on it."},
 {"property": "C125", "status": "partial", "theorems": ["C125_protected_partial", "C125_refuted", "C125_refuted_import", "C125_refuted_read"], "note": "Proved for deletions and replacements of the resource itself. Refuted: protected resources are deleted together with what they depend on if that is deleted before it is replaced, and if another ID is imported or read under their name."},
 {"property": "C126", "status": "partial", "theorems": ["C126_ignored_partial", "C126_refuted_item", "C126_refuted_silent", "C126_refuted_empty", "C126_refuted_replacement"], "note": "Proved for well-formed paths that end with a name, if the resource is updated or kept. Refuted: an item of a list that is not recorded becomes null; malformed paths, * and paths into secrets have no effect and no error is given; the empty path ends the engine; in a replacement, properties listed by their own name take the new value, those listed by a longer path the recorded one."},
 {"property": "C127", "status": "partial", "theorems": ["C127_replaced_partial", "C127_refuted"], "note": "Proved, in both directions, for changes the provider tells of by their paths. Refuted for providers that only name the top-level properties, or none: a change of a nested property that is listed updates the resource in place."},
 {"property": "C128", "status": "partial", "theorems": ["C128_targets_partial", "C128_whole_partial", "C128_refuted"], "note": "Proved for programs without imports, resources that were only read before, and resources that are deleted for the replacement of something they depend on. These are created although they are no targets: refuted."},
 {"property": "C129", "status": "partial", "theorems": ["C129_recorded_partial", "C129_refuted"], "note": "Proved for the dependencies of what is created, updated or replaced. Refuted for parents, already in the first update of a stack, whose root resource is left out, and for new dependencies of resources that are kept."},
 {"property": "C130", "status": "partial", "theorems": ["C130_made_partial", "C130_refuted"], "note": "Proved for providers that compare with what exists. Refuted for those that leave the comparison to the engine, as dynamic providers do by default: the inputs of a resource that is left out are recorded as if they had been applied, and the change is never made."},
 {"property": "C131", "status": "proved", "theorems": ["C131_usable", "C131_checked"], "note": "For all records, answers and targets."},
 {"property": "C132", "status": "partial", "theorems": ["C132_recorded_partial", "C132_failed", "C132_refused", "C132_refuted"], "note": "Proved but for resources that are reported unhealthy in a way that is not understood: these exist, and are dropped from the record, refuted."},
 {"property": "C133", "status": "partial", "theorems": ["C133_names_partial", "C133_refuted_parent", "C133_refuted_property"], "note": "Proved for dependencies, and for parents that are recorded. Children of what is gone lose their parents altogether instead of moving up, and the dependencies of single properties keep the names: refuted."},
 {"property": "C134", "status": "partial", "theorems": ["C134_secrets_partial", "C134_additional", "C134_refuted"], "note": "Proved for providers that do not accept secrets, and for additional_secret_outputs with any provider. Refuted for providers that accept secrets and return values without the mark."},
 {"property": "C135", "status": "proved", "theorems": ["C135_adopts", "C135_fails", "C135_refuses"], "note": "For all providers and states."},
 {"property": "C136", "status": "partial", "theorems": ["C136_kept_partial", "C136_refuted", "C136_refuted_notation"], "note": "Proved for import IDs that are the IDs of the resources. Refuted for others: the import ID is recorded by the import and forgotten by the next update, so the third update of the same program imports the resource again and deletes it."},
 {"property": "C137", "status": "partial", "theorems": ["C137_expected_partial", "C137_unchanged_partial", "C137_refuted_unchanged", "C137_refuted_inputs", "C137_refuted_replaced"], "note": "Proved that a preview shows at least what is done, for programs that only fill in what was not known and providers that keep their word, except that resources of a provider with unknown configuration are shown as updated and may be replaced. Refuted: a preview of a stack where nothing changes can show deletions, as outputs that are None are taken for unknown; providers without previews have inputs taken for outputs, so that too little is shown."},
 {"property": "C138", "status": "partial", "theorems": ["C138_retained_partial", "C138_since_partial", "C138_released_partial", "C138_deleted_partial", "C138_refuted"], "note": "Proved for all histories in which the record and the programs set the option. Refuted: an update that sets the option and needs a replacement deletes what was there, since the recorded option counts."},
 {"property": "C139", "status": "partial", "theorems": ["C139_recovers_partial", "C139_refuted"], "note": "Proved for all histories of programs that set neither protect nor retain_on_delete. Refuted: if protection is taken away together with a change that replaces the resource and the deletion fails, every later update and destroy fails."},
 {"property": "C140", "status": "proved", "theorems": ["C140_along", "C140_otherwise"], "note": "The set that must go is the only one that meets the specification. Dependencies of inputs are among the dependencies of the resource, as the SDK sends them, and no name is recorded twice."},
 {"property": "C141", "status": "partial", "theorems": ["C141_archive_partial", "C141_noticed_partial", "C141_asset", "C141_order_partial", "C141_refuted_permissions", "C141_refuted_same"], "note": "Proved for assets. For archives, proved that changes of names and contents are noticed, and that the order of members is no change. The hash and the tar format are taken to be injective. Refuted: permissions are not compared, and the same files can be taken for a change if they are given by a directory instead of their paths."},
 {"property": "C142", "status": "partial", "theorems": ["C142_contents_partial", "C142_exact_partial", "C142_error", "C142_refuted_link", "C142_refuted_within", "C142_refuted_twice"], "note": "Proved but for links to directories and for two members for the same file. Refuted: what is behind a link to a directory is left out, even if it is the path of the archive itself; of two members for a file one is dropped."},
 {"property": "C143", "status": "partial", "theorems": ["C143_shared", "C143_once", "C143_own_partial", "C143_distinct_partial", "C143_refuted_name", "C143_refuted_url", "C143_refuted_other"], "note": "Sharing is proved without restriction. That each gets a provider of its own package, version and URL is proved for packages without dots and colons and URLs with a scheme; that others get others for versions that are no builds, without URLs. Refuted: the names of default providers can be the same for a pre-release and a build and for URLs that differ, and with a URL without a scheme the provider of another version is used."},
 {"property": "C144", "status": "proved", "theorems": ["C144_barred", "C144_others", "C144_misread", "C144_named"], "note": "For ASCII white space. That the reference of a denied provider makes the operation fail is cited, not modelled."},
 {"property": "C145", "status": "proved", "theorems": ["C145_create", "C145_update", "C145_delete", "C145_refused"], "note": "For one resource, without aliases, protection and retaining on delete. An operation that fails in part is taken for done, as its state is recorded."},
 {"property": "C146", "status": "partial", "theorems": ["C146_duration_partial", "C146_refuted_days"], "note": "Proved for whole numbers of hours, minutes, seconds and milliseconds, in nanoseconds; seconds in floating point, signs and fractions are missing. Refuted: days are documented but not understood."},
 {"property": "C147", "status": "partial", "theorems": ["C147_same_partial", "C147_given", "C147_refuted_url", "C147_refuted_version"], "note": "Proved if both or none of version and URL are given, or if there is no default for the one that is not. Refuted: if one is given, the default of the other is used for default providers but not for those of the program."},
 {"property": "C148", "status": "partial", "theorems": ["C148_secret_partial", "C148_refuted_id", "C148_refuted_unlisted"], "note": "Proved for all outputs but `id`, and that an output is secret only if the provider said so or if it was listed since it was reported. Refuted: an output `id` is not made secret, which is warned about, and an output that is no longer listed stays secret until the resource is updated. Refreshes are C134."}
]}
