{"id": "C01", "title": "apply propagates dependencies, secretness and knownness", "statement": "For every output o and callback f, when o.apply(f) runs its callback, the resulting output depends on every resource o depends on (and, if f returned an Output, on every resource that one depends on), is secret if o is secret or the returned Output is secret, and is known exactly when the value f produced is known.", "quantifier": "all outputs, all callbacks (returning plain values, awaitables, Outputs or raising), preview and update, all resource sets", "why_tests_cant": "the callback and the output metadata are arbitrary; a test fixes one callback and one combination of flags", "anchors": [{"file": "sdk/python/lib/pulumi/output.py", "symbols": ["Output.apply", "Output.__init__"]}]}
{"id": "C02", "title": "preview never runs callbacks on unknown values", "statement": "During a preview, o.apply(f) on an output that is not known never calls f; the result keeps o's resources and secretness, is not known and has no value. During an update, or when o is known, f is called exactly once, with o's value.", "quantifier": "all outputs, all callbacks, both modes", "why_tests_cant": "a test can observe one callback; the claim is that no output and callback violate it", "anchors": [{"file": "sdk/python/lib/pulumi/output.py", "symbols": ["Output.apply"]}]}
{"id": "C03", "title": "Output.all combines outputs without losing metadata", "statement": "Output.all over any arguments is known iff every argument is known, secret iff some argument is secret, depends on exactly the union of the arguments' resources and yields the values in argument order (positionally) or under the same keys (keyword); mixing both forms raises.", "quantifier": "all finite lists of arguments of every kind, nested to any depth", "why_tests_cant": "length, order, nesting and flags are unbounded", "anchors": [{"file": "sdk/python/lib/pulumi/output.py", "symbols": ["Output.all", "_gather_from_dict"]}]}
{"id": "C04", "title": "secret marks and unsecret clears only secretness", "statement": "Output.secret(v) is secret and otherwise has the value, knownness and resources of Output.from_input(v); Output.unsecret(o) is not secret and otherwise has the value, knownness and resources of o; unsecret after secret of a non-secret input is the lifted input.", "quantifier": "all inputs and outputs", "why_tests_cant": "quantifies over every value and metadata combination", "anchors": [{"file": "sdk/python/lib/pulumi/output.py", "symbols": ["Output.secret", "Output.unsecret", "Output.is_secret"]}]}
{"id": "C05", "title": "from_input unwraps deeply", "statement": "Output.from_input(v) of any nesting of lists, dicts, input types, awaitables and outputs yields a value that contains no awaitable and no Output, of the same shape; it is secret iff some nested output is secret, known iff all nested outputs are known, and depends on the union of all nested resources.", "quantifier": "all values of unbounded depth", "why_tests_cant": "tests cover a few nestings only", "anchors": [{"file": "sdk/python/lib/pulumi/output.py", "symbols": ["Output.from_input", "Output._from_input_shallow"]}]}
{"id": "C06", "title": "attribute and item access on outputs lifts over unknowns", "statement": "o.name and o[key] on an output whose value is unknown during a preview give an unknown, not-known output with o's resources and secretness instead of an error; on a known value they give the attribute or item with o's resources and secretness.", "quantifier": "all outputs, keys, modes", "why_tests_cant": "unbounded values and keys", "anchors": [{"file": "sdk/python/lib/pulumi/output.py", "symbols": ["Output.__getattr__", "Output.__getitem__", "Output.apply"]}]}
{"id": "C07", "title": "apply satisfies the functor and monad laws", "statement": "o.apply(identity) is o; o.apply(f).apply(g) equals o.apply(g after f) for plain f and g; o.apply(f).apply(g) equals o.apply(lambda v: f(v).apply(g)) for callbacks returning Outputs: same value, knownness, secretness and the same set of resources, whenever o is known or the run is not a preview.", "quantifier": "all outputs and pairs of callbacks", "why_tests_cant": "universally quantified over functions", "anchors": [{"file": "sdk/python/lib/pulumi/output.py", "symbols": ["Output.apply"]}]}
{"id": "C08", "title": "failing apply resolves everything and keeps secretness", "statement": "If the callback of apply raises, the resulting output's value raises the same error, none of its metadata is left unresolved, and if the source output was secret the result is still secret.", "quantifier": "all outputs and all raising callbacks", "why_tests_cant": "requires all failure points", "anchors": [{"file": "sdk/python/lib/pulumi/output.py", "symbols": ["Output.apply"]}]}
{"id": "C09", "title": "merging Output-valued depends_on keeps knownness and secretness", "statement": "When two ResourceOptions with Output-valued depends_on are merged, the merged depends_on output is known only if both are known, secret if either is secret, and depends on the resources of both.", "quantifier": "all pairs of outputs", "why_tests_cant": "all flag combinations of two outputs and all resource sets", "anchors": [{"file": "sdk/python/lib/pulumi/output.py", "symbols": ["_map2_output", "_map2_input"]}, {"file": "sdk/python/lib/pulumi/resource.py", "symbols": ["ResourceOptions.merge"]}]}
{"id": "C10", "title": "plain values survive the wire", "statement": "Serialising any plain value (null, booleans, numbers, strings, lists, string-keyed maps, nested arbitrarily, with no reserved sentinel string and no reserved signature or internal key) into a protobuf struct and deserialising it gives the same value, except that null-valued map entries are dropped.", "quantifier": "all plain values of unbounded size and depth", "why_tests_cant": "infinitely many values", "anchors": [{"file": "sdk/python/lib/pulumi/runtime/rpc.py", "symbols": ["serialize_property", "deserialize_property", "serialize_properties", "deserialize_properties"]}]}
{"id": "C11", "title": "secretness survives the wire", "statement": "If the monitor supports secrets, a known secret output anywhere in the inputs appears on the wire wrapped with the secret signature around exactly the serialisation of its value, and after deserialisation the top-level property it sits in is secret.", "quantifier": "all input values with secrets at any depth", "why_tests_cant": "depth and position are unbounded", "anchors": [{"file": "sdk/python/lib/pulumi/runtime/rpc.py", "symbols": ["serialize_property", "deserialize_property", "is_rpc_secret", "wrap_rpc_secret", "unwrap_rpc_secret"]}]}
{"id": "C12", "title": "nested secrets bubble to the top-level property", "statement": "Deserialising a message gives, for each top-level property, a value that is marked secret iff a secret-wrapped value occurs anywhere inside it, and no secret marker remains nested inside the value.", "quantifier": "all wire messages of unbounded depth", "why_tests_cant": "tests cover a few nestings", "anchors": [{"file": "sdk/python/lib/pulumi/runtime/rpc.py", "symbols": ["deserialize_property", "deserialize_properties"]}]}
{"id": "C13", "title": "unknown outputs never leak their placeholder value", "statement": "The serialised form of inputs containing an output that is not known does not depend on that output's underlying value: replacing the value by any other gives the same wire message.", "quantifier": "all inputs, all unknown outputs in them, all replacement values", "why_tests_cant": "a hyperproperty relating two runs", "anchors": [{"file": "sdk/python/lib/pulumi/runtime/rpc.py", "symbols": ["serialize_property"]}]}
{"id": "C14", "title": "property dependencies are complete and exact", "statement": "For each property sent to the engine the recorded dependencies are exactly the resources that occur in it directly or as dependencies of outputs nested at any depth in it, and the properties for which dependencies are recorded are exactly the properties present in the message.", "quantifier": "all input maps of unbounded depth", "why_tests_cant": "unbounded nesting", "anchors": [{"file": "sdk/python/lib/pulumi/runtime/rpc.py", "symbols": ["serialize_properties", "serialize_property"]}]}
{"id": "C15", "title": "assets and archives survive the wire", "statement": "Serialising then deserialising any file, string or remote asset, and any file, remote or asset-map archive (nested to any depth), yields an equal asset or archive.", "quantifier": "all assets and archives of unbounded nesting", "why_tests_cant": "nesting unbounded", "anchors": [{"file": "sdk/python/lib/pulumi/runtime/rpc.py", "symbols": ["serialize_property", "deserialize_properties"]}, {"file": "sdk/python/lib/pulumi/asset.py", "symbols": ["FileAsset", "StringAsset", "RemoteAsset", "AssetArchive", "FileArchive", "RemoteArchive"]}]}
{"id": "C16", "title": "the unknown sentinel is handled uniformly", "statement": "A not-known output serialises to the unknown sentinel; the sentinel deserialises to an unknown value during preview or when the caller keeps unknowns, and to None otherwise; so no string equal to the sentinel occurs at any depth in the deserialised lists, maps, archives and output values.", "quantifier": "all messages, both modes, both keep_unknowns settings", "why_tests_cant": "all positions and depths", "anchors": [{"file": "sdk/python/lib/pulumi/runtime/rpc.py", "symbols": ["deserialize_property", "serialize_property", "UNKNOWN"]}]}
{"id": "C17", "title": "callers that keep unknowns see every unknown", "statement": "deserialize_properties(msg, keep_unknowns=True) turns every unknown sentinel in the message into an unknown value, wherever it occurs, including inside secrets and archives.", "quantifier": "all messages", "why_tests_cant": "all positions", "anchors": [{"file": "sdk/python/lib/pulumi/runtime/rpc.py", "symbols": ["deserialize_properties", "deserialize_property"]}]}
{"id": "C18", "title": "internal keys are filtered at the top level", "statement": "Deserialising with internal keys not kept drops exactly the top-level keys beginning with two underscores other than the dynamic provider key; with internal keys kept nothing but null-valued entries is dropped.", "quantifier": "all messages and keys", "why_tests_cant": "all strings as keys", "anchors": [{"file": "sdk/python/lib/pulumi/runtime/rpc.py", "symbols": ["deserialize_properties"]}]}
{"id": "C19", "title": "contains_unknowns decides reachability of an unknown", "statement": "contains_unknowns(v) terminates on every finite object graph, including cyclic ones and ones with sharing, and returns true iff an unknown is reachable from v through lists and dict values.", "quantifier": "all finite object graphs of lists and dicts, cyclic or not", "why_tests_cant": "cycles and sharing of unbounded size", "anchors": [{"file": "sdk/python/lib/pulumi/runtime/rpc.py", "symbols": ["contains_unknowns"]}]}
{"id": "C20", "title": "None inputs are omitted", "statement": "A top-level input whose value serialises to None does not appear in the message nor in the property dependencies, and every other input appears exactly once.", "quantifier": "all input maps", "why_tests_cant": "all maps", "anchors": [{"file": "sdk/python/lib/pulumi/runtime/rpc.py", "symbols": ["serialize_properties"]}]}
{"id": "C21", "title": "input names are translated consistently", "statement": "Each input is sent, and its dependencies recorded, under the resource class's translation of its name; when the class gives a type for the inputs, input-type objects are sent under their declared property names and not translated again, while plain dicts are translated by the declared table only where the type says so.", "quantifier": "all maps, translation functions and declared tables", "why_tests_cant": "all translation tables", "anchors": [{"file": "sdk/python/lib/pulumi/runtime/rpc.py", "symbols": ["serialize_properties", "serialize_property"]}]}
{"id": "C22", "title": "resource references survive the wire", "statement": "A custom resource serialised to an engine that supports resource references and deserialised by a program that registered its type's module is resolved by constructing the registered class for the same URN; with no registration it becomes its id (unknown when the id is not yet known), and a component becomes its URN.", "quantifier": "all resources, registries and feature sets", "why_tests_cant": "all registries", "anchors": [{"file": "sdk/python/lib/pulumi/runtime/rpc.py", "symbols": ["serialize_property", "deserialize_resource", "get_resource_module", "get_resource_package"]}]}
{"id": "C23", "title": "output values survive the wire", "statement": "With output-value support, an output serialised as an output value and deserialised gives an output with the same value, knownness, secretness and the same set of dependency URNs.", "quantifier": "all outputs with plain values", "why_tests_cant": "all values and metadata", "anchors": [{"file": "sdk/python/lib/pulumi/runtime/rpc.py", "symbols": ["serialize_property", "deserialize_output_value"]}]}
{"id": "C24", "title": "registered resources always resolve their outputs", "statement": "Whatever point a resource registration fails at (input serialisation, option resolution, the RPC, response deserialisation, output resolution) or if it succeeds, every output of the resource, its URN and its id are resolved exactly once: with the engine's values on success, with the error otherwise.", "quantifier": "all failure points, responses and property maps", "why_tests_cant": "crash points are interleaved with arbitrary inputs", "anchors": [{"file": "sdk/python/lib/pulumi/runtime/resource.py", "symbols": ["register_resource"]}, {"file": "sdk/python/lib/pulumi/runtime/rpc.py", "symbols": ["resolve_outputs", "resolve_outputs_due_to_exception"]}]}
{"id": "C25", "title": "read resources always resolve their outputs", "statement": "As for registration: reading an existing resource by id or by URN resolves every output of the resource, its URN and its id exactly once whatever point it fails at.", "quantifier": "all failure points, responses and property maps", "why_tests_cant": "crash points", "anchors": [{"file": "sdk/python/lib/pulumi/runtime/resource.py", "symbols": ["read_resource", "get_resource"]}]}
{"id": "C26", "title": "output resolution precedence", "statement": "After a registration, read or lookup succeeds, each declared output resolves to the engine's non-null value when the response has one; otherwise to the input value in an update (or with legacy apply), and otherwise to None, which is known only in an update; a property is secret exactly when the value used is marked secret; its dependencies are the engine's dependencies for that property plus the resource itself.", "quantifier": "all responses, inputs, resolvers, modes", "why_tests_cant": "all maps", "anchors": [{"file": "sdk/python/lib/pulumi/runtime/rpc.py", "symbols": ["resolve_outputs", "resolve_properties", "transfer_properties"]}]}
{"id": "C27", "title": "declaring a dependency never makes the dependency graph cyclic", "statement": "Starting from no declared dependencies, after any sequence of declare_dependency calls the graph of accepted dependencies has no cycle; a call is refused exactly when the reverse reachability already exists, and a refusal changes nothing.", "quantifier": "all sequences of calls over all resource sets", "why_tests_cant": "histories unbounded", "anchors": [{"file": "sdk/python/lib/pulumi/runtime/resource_cycle_breaker.py", "symbols": ["declare_dependency", "_reachable"]}]}
{"id": "C28", "title": "depending on a component means depending on its children", "statement": "Expanding a set of dependencies yields the URNs of exactly: every custom resource given, every remote component given, and recursively every child reachable from a local component through local components, and nothing else; components themselves contribute no URN.", "quantifier": "all finite resource forests", "why_tests_cant": "depth unbounded", "anchors": [{"file": "sdk/python/lib/pulumi/runtime/resource.py", "symbols": ["_expand_dependencies", "_add_dependency", "_resolve_depends_on_urns"]}]}
{"id": "C29", "title": "aliases cover all combinations of own and inherited aliases", "statement": "For a resource with N own aliases whose parent has M aliases, exactly N + M*(1+N) aliases are computed: each own alias, each parent alias with the current name and type, and each parent alias combined with each own alias; after deduplication the list has no repeats and the same set in order of first occurrence.", "quantifier": "all alias lists, names, types", "why_tests_cant": "all list lengths", "anchors": [{"file": "sdk/python/lib/pulumi/resource.py", "symbols": ["all_aliases", "inherited_child_alias", "collapse_alias_to_urn"]}, {"file": "sdk/python/lib/pulumi/runtime/resource.py", "symbols": ["prepare_resource"]}]}
{"id": "C30", "title": "URNs parse back into their parts", "statement": "For stack, project, qualified type and name that do not contain the separator '::' (and, where another part follows, do not end in ':'), parsing the constructed URN returns the name, the innermost type and its package, module and type name; two different such tuples never give the same URN; a string is rejected exactly when it has fewer than two separators.", "quantifier": "all strings", "why_tests_cant": "all strings", "anchors": [{"file": "sdk/python/lib/pulumi/urn.py", "symbols": ["_parse_urn"]}, {"file": "sdk/python/lib/pulumi/resource.py", "symbols": ["create_urn"]}, {"file": "sdk/python/lib/pulumi/runtime/mocks.py", "symbols": ["MockMonitor.make_urn"]}]}
{"id": "C31", "title": "URN of a child carries its parent's qualified type", "statement": "create_urn(name, type, parent=u) returns a URN with the same stack and project as u, qualified type equal to u's qualified type, a dollar sign and the type, and the given name, for every parent URN the engine can produce.", "quantifier": "all parents, names and types", "why_tests_cant": "all strings incl. names containing the separator", "anchors": [{"file": "sdk/python/lib/pulumi/resource.py", "symbols": ["create_urn"]}]}
{"id": "C32", "title": "inherited aliases rename by prefix only", "statement": "The alias a child inherits from a renamed parent has the parent alias's stack, project and qualified type, and the child's name with the leading parent name replaced by the alias's name when the child's name starts with the parent's name, unchanged otherwise.", "quantifier": "all names and aliases", "why_tests_cant": "all strings", "anchors": [{"file": "sdk/python/lib/pulumi/resource.py", "symbols": ["inherited_child_alias"]}]}
{"id": "C33", "title": "provider selection priority", "statement": "A custom resource uses: its explicit provider option if given; else the entry for its package in its providers; else its parent's provider for that package; and never one for another package. The URN of the type without a package uses none.", "quantifier": "all option combinations, provider maps, types", "why_tests_cant": "all maps", "anchors": [{"file": "sdk/python/lib/pulumi/resource.py", "symbols": ["Resource.__init__", "Resource._get_providers", "Resource.get_provider", "ResourceOptions._collapse_providers"]}]}
{"id": "C34", "title": "children inherit protect and providers from parents", "statement": "A resource that does not set protect inherits its parent's; one that does keeps its own. A component's providers extend and override its parent's.", "quantifier": "all parent chains and options", "why_tests_cant": "chains unbounded", "anchors": [{"file": "sdk/python/lib/pulumi/resource.py", "symbols": ["Resource.__init__"]}]}
{"id": "C35", "title": "transformations apply child-first, then outward, and cannot move resources", "statement": "A resource is constructed with the props and options obtained by running its own transformations in order, then its parent's, then its grandparent's up to the stack, each seeing the previous result; a None result keeps the current ones; a transformation that changes the parent raises and registers nothing.", "quantifier": "all chains of transformations", "why_tests_cant": "arbitrary functions and chain lengths", "anchors": [{"file": "sdk/python/lib/pulumi/resource.py", "symbols": ["Resource.__init__"]}, {"file": "sdk/python/lib/pulumi/runtime/stack.py", "symbols": ["register_stack_transformation"]}]}
{"id": "C36", "title": "merging resource options", "statement": "ResourceOptions.merge keeps every scalar option of the right operand that is set and otherwise the left's, concatenates list options left to right, unites providers keyed by package with the right winning, changes neither operand, has the empty options as unit and is associative.", "quantifier": "all pairs and triples of options", "why_tests_cant": "all values of 18 fields", "anchors": [{"file": "sdk/python/lib/pulumi/resource.py", "symbols": ["ResourceOptions.merge", "ResourceOptions._merge_lists", "ResourceOptions._collapse_providers"]}]}
{"id": "C37", "title": "chained instance merges accumulate", "statement": "a.merge(b).merge(c) gives the same options as merging a, b and c with the static form.", "quantifier": "all triples of options", "why_tests_cant": "all values", "anchors": [{"file": "sdk/python/lib/pulumi/resource.py", "symbols": ["ResourceOptions.__init__", "ResourceOptions._merge_instance"]}, {"file": "sdk/python/lib/pulumi/invoke.py", "symbols": ["InvokeOptions"]}]}
{"id": "C38", "title": "merging invoke options keeps set fields", "statement": "InvokeOptions.merge keeps the left operand's version, parent, provider and plugin URL unless the right operand sets them; merging with default options changes nothing.", "quantifier": "all pairs of options", "why_tests_cant": "all values", "anchors": [{"file": "sdk/python/lib/pulumi/invoke.py", "symbols": ["InvokeOptions.merge", "InvokeOptions.__init__"]}]}
{"id": "C39", "title": "package and module registration is deterministic", "statement": "After any sequence of registrations each (name, version) is registered at most once (a duplicate raises and changes nothing); a lookup with a version returns a registered entry of that name compatible with the version if any, choosing the highest; a lookup without version returns the highest; the answer does not depend on the registration order.", "quantifier": "all registration histories and lookups", "why_tests_cant": "all histories", "anchors": [{"file": "sdk/python/lib/pulumi/runtime/rpc.py", "symbols": ["register_resource_package", "register_resource_module", "get_resource_package", "get_resource_module"]}]}
{"id": "C40", "title": "version compatibility follows semver", "statement": "A registered version is accepted for a wanted version exactly when it has the same major version and is not lower.", "quantifier": "all pairs of versions", "why_tests_cant": "all numbers", "anchors": [{"file": "sdk/python/lib/pulumi/runtime/rpc.py", "symbols": ["check_version", "same_version"]}]}
{"id": "C41", "title": "outstanding RPCs are all awaited and the first failure wins", "statement": "For every schedule, waiting for RPCs returns normally only when every RPC ever started has completed successfully; if any RPC failed the wait raises the exception of the first one that failed, and later failures never replace it.", "quantifier": "all schedules of RPC starts, completions and failures", "why_tests_cant": "all interleavings", "anchors": [{"file": "sdk/python/lib/pulumi/runtime/rpc_manager.py", "symbols": ["RPCManager.do_rpc"]}, {"file": "sdk/python/lib/pulumi/runtime/stack.py", "symbols": ["wait_for_rpcs", "run_pulumi_func"]}]}
{"id": "C42", "title": "feature detection is cached and safe", "statement": "For every history of queries, once the engine has answered for a feature every later query gives the same answer without contacting it; a monitor that does not implement the query counts as not supporting it, other failures raise and cache nothing.", "quantifier": "all query histories and monitor behaviours", "why_tests_cant": "histories", "anchors": [{"file": "sdk/python/lib/pulumi/runtime/settings.py", "symbols": ["monitor_supports_feature"]}]}
{"id": "C43", "title": "configuration lookup", "statement": "Config.get returns the value set programmatically, else the one of the key's environment variable, else the one in the process-wide PULUMI_CONFIG document, else the default; typed getters return the parsed value iff it is well-formed and raise a type error otherwise; require raises a missing-key error iff there is no value; secret getters return a secret output of the same value.", "quantifier": "all configurations, keys and strings", "why_tests_cant": "all strings", "anchors": [{"file": "sdk/python/lib/pulumi/config.py", "symbols": ["Config"]}, {"file": "sdk/python/lib/pulumi/runtime/config.py", "symbols": ["get_config"]}]}
{"id": "C44", "title": "environment variables of distinct keys are distinct", "statement": "Two different configuration keys never read the same environment variable.", "quantifier": "all pairs of keys", "why_tests_cant": "all strings", "anchors": [{"file": "sdk/python/lib/pulumi/runtime/config.py", "symbols": ["get_config_env_key"]}]}
{"id": "C45", "title": "replacing all configuration", "statement": "After set_all_config(m, secrets) a lookup sees exactly m (over the environment) and is_config_secret answers exactly for the keys in secrets, whatever was set before.", "quantifier": "all histories of configuration calls", "why_tests_cant": "histories", "anchors": [{"file": "sdk/python/lib/pulumi/runtime/config.py", "symbols": ["set_all_config", "set_config", "is_config_secret", "get_config"]}]}
{"id": "C46", "title": "stack exports are converted without looping and without private fields", "statement": "Exporting any finite object graph terminates, yields a value built from primitives, lists, dicts and outputs, contains no key starting with an underscore, and leaves plain acyclic data without such keys unchanged.", "quantifier": "all finite object graphs incl. cyclic", "why_tests_cant": "cycles", "anchors": [{"file": "sdk/python/lib/pulumi/runtime/stack.py", "symbols": ["massage", "is_primitive", "reference_contains"]}]}
{"id": "C47", "title": "stack outputs are registered even if the program fails", "statement": "Whatever the program function does (returns, raises after any number of exports), the outputs exported so far are registered on the stack exactly once and the exception, if any, propagates; a second active stack is refused.", "quantifier": "all programs as sequences of exports ending normally or not", "why_tests_cant": "all crash points", "anchors": [{"file": "sdk/python/lib/pulumi/runtime/stack.py", "symbols": ["Stack.__init__", "Stack.output"]}]}
{"id": "C48", "title": "stack references keep secretness", "statement": "get_output(name) and require_output(name) on a stack reference are secret iff the referenced output is listed as secret by the referenced stack; when the list or the name is not available they are as secret as the stack's outputs as a whole. require_output fails when the output is absent, get_output yields None. Both depend on the resources of the name and of the outputs, and in a preview are not known when the name or the outputs are not.", "quantifier": "all names and referenced stacks", "why_tests_cant": "all maps", "anchors": [{"file": "sdk/python/lib/pulumi/stack_reference.py", "symbols": ["StackReference", "__is_secret_name"]}]}
{"id": "C49", "title": "mock monitor behaves like an engine", "statement": "Under mocks, a read or registration returns exactly the id and state the user's mock gave, getResource returns the state last registered for that URN and raises if none, a function call returns exactly what the user's mock returned, and the URN is determined by stack, project, parent type, type and name.", "quantifier": "all histories of mock calls", "why_tests_cant": "histories", "anchors": [{"file": "sdk/python/lib/pulumi/runtime/mocks.py", "symbols": ["MockMonitor"]}]}
{"id": "C50", "title": "component provider calls are isolated", "statement": "For every interleaving of concurrent Construct and Call requests, at most one is executing user code at any time, and each sees the settings and configuration of its own request, whatever requests ran before and however they ended; a waiting request eventually can go on; a request's outcome does not depend on failures of other requests.", "quantifier": "all interleavings of requests", "why_tests_cant": "schedules", "anchors": [{"file": "sdk/python/lib/pulumi/provider/server.py", "symbols": ["ProviderServicer.Construct", "ProviderServicer.Call", "ProviderServicer._construct", "ProviderServicer._call"]}]}
{"id": "C51", "title": "inputs given to component constructors keep secretness and dependencies", "statement": "Each input passed to a component constructor is an output with exactly the recorded dependencies when it was secret or had dependencies recorded by the engine, and otherwise the plain value; nothing recorded by the engine is lost.", "quantifier": "all inputs, dependency maps", "why_tests_cant": "all maps", "anchors": [{"file": "sdk/python/lib/pulumi/provider/server.py", "symbols": ["ProviderServicer._construct_inputs", "ProviderServicer._select_value", "_create_provider_resource"]}]}
{"id": "C52", "title": "construct and call responses carry state and dependencies", "statement": "The construct response carries the component's URN, its state serialised, and for each state property exactly the URNs of the resources it depends on; the call response carries outputs with dependencies, and failures exactly as reported.", "quantifier": "all results", "why_tests_cant": "all values", "anchors": [{"file": "sdk/python/lib/pulumi/provider/server.py", "symbols": ["ProviderServicer._construct_response", "ProviderServicer._call_response"]}]}
{"id": "C53", "title": "invoke raises on failures and returns the deserialised result", "statement": "invoke returns the deserialised return value iff the engine reported no failures, and otherwise raises an error naming the function and the engine's error or the first failure; a single request carries the function's token and the serialised arguments. call sends each argument's dependencies as URNs and yields an output that depends on exactly the dependencies returned, is secret iff a property of the result is, is known iff the result has no unknowns, and fails if the engine reports failures or an error.", "quantifier": "all responses", "why_tests_cant": "all values", "anchors": [{"file": "sdk/python/lib/pulumi/runtime/invoke.py", "symbols": ["invoke", "call"]}]}
{"id": "C54", "title": "declared input and output types store and retrieve values", "statement": "For every declared input type, reading a property after setting it returns the value set and leaves the others unchanged; converting to a dict gives exactly the non-None properties under their declared names.", "quantifier": "all declarations, values and histories of writes", "why_tests_cant": "all declarations", "anchors": [{"file": "sdk/python/lib/pulumi/_types.py", "symbols": ["get", "set", "input_type_to_dict", "output_type_from_dict", "_py_properties"]}]}
{"id": "C55", "title": "translating engine outputs to typed outputs preserves shape, secrecy and unknowns", "statement": "Translating a resource's raw outputs to their declared types preserves list lengths and order, map entries (under translated keys), values at leaves, secret markers and unknowns; a value declared with an output type becomes an instance with every declared property set to the translation of the entry under its wire name, or None if absent; and it raises exactly on a declared-type mismatch (a map or list where another type is declared, or a value outside a declared enum, at any depth).", "quantifier": "all values and declared types", "why_tests_cant": "unbounded depth", "anchors": [{"file": "sdk/python/lib/pulumi/runtime/rpc.py", "symbols": ["translate_output_properties"]}]}
{"id": "C56", "title": "automation command lines contain exactly the requested options", "statement": "up, preview, refresh and destroy pass to the CLI each requested option exactly once, always non-interactively and for the selected stack, with list-valued options repeated per element in order; every element is a string.", "quantifier": "all combinations of options", "why_tests_cant": "exponentially many combinations", "anchors": [{"file": "sdk/python/lib/pulumi/automation/_stack.py", "symbols": ["Stack.up", "Stack.preview", "Stack.refresh", "Stack.destroy", "_parse_extra_args", "Stack._run_pulumi_cmd_sync"]}, {"file": "sdk/python/lib/pulumi/automation/_cmd.py", "symbols": ["_run_pulumi_cmd"]}]}
{"id": "C57", "title": "stack settings survive saving and loading", "statement": "Saving stack settings and loading them back gives equal settings.", "quantifier": "all settings", "why_tests_cant": "all values", "anchors": [{"file": "sdk/python/lib/pulumi/automation/_stack_settings.py", "symbols": ["StackSettings._serialize", "StackSettings._deserialize"]}]}
{"id": "C58", "title": "CLI failures are classified", "statement": "A CLI run with exit code 0 never raises; one with a non-zero code always raises, with the most specific error whose pattern matches the output, concurrent-update being raised for a conflict message unless the stack is reported missing or already existing.", "quantifier": "all outputs and codes", "why_tests_cant": "all strings", "anchors": [{"file": "sdk/python/lib/pulumi/automation/errors.py", "symbols": ["create_command_error"]}, {"file": "sdk/python/lib/pulumi/automation/_cmd.py", "symbols": ["_run_pulumi_cmd"]}]}
{"id": "C59", "title": "CLI version check", "statement": "A workspace is usable iff version checking is opted out of or the CLI has the same major version as the minimum and is not lower, in semver order; an unparsable version is an error unless opted out.", "quantifier": "all versions", "why_tests_cant": "all versions", "anchors": [{"file": "sdk/python/lib/pulumi/automation/_local_workspace.py", "symbols": ["_parse_and_validate_pulumi_version"]}]}
{"id": "C60", "title": "create_or_select is idempotent", "statement": "create_or_select ends with the stack existing and selected, whether or not it existed before, without disturbing other stacks; create fails iff it exists and select fails iff it does not; any other failure propagates.", "quantifier": "all workspaces, stack names, failure modes", "why_tests_cant": "all states", "anchors": [{"file": "sdk/python/lib/pulumi/automation/_stack.py", "symbols": ["Stack.__init__", "Stack.create_or_select"]}]}
{"id": "C61", "title": "inline programs leave no state behind", "statement": "Running any number of inline programs one after another, each ending in any way, each sees only the settings and configuration of its own request and no RPC of an earlier one.", "quantifier": "all sequences of runs and outcomes", "why_tests_cant": "histories", "anchors": [{"file": "sdk/python/lib/pulumi/automation/_server.py", "symbols": ["LanguageServer.Run"]}]}
{"id": "C62", "title": "engine events are delivered in order, once each", "statement": "Every event line the CLI writes to its event log before finishing is delivered to the callback exactly once and in order, however writes and reads interleave.", "quantifier": "all interleavings of writer chunks and reader polls", "why_tests_cant": "schedules", "anchors": [{"file": "sdk/python/lib/pulumi/automation/_stack.py", "symbols": ["_watch_logs"]}]}
{"id": "C63", "title": "captured output is the concatenation of reported lines", "statement": "The stdout of a CLI result is the newline-joined sequence of lines passed to on_output, in order, each exactly once.", "quantifier": "all outputs", "why_tests_cant": "all strings", "anchors": [{"file": "sdk/python/lib/pulumi/automation/_cmd.py", "symbols": ["_run_pulumi_cmd"]}]}
{"id": "C64", "title": "dynamic providers are carried through every operation", "statement": "For every sequence of dynamic-provider requests, each check, create, update and read result carries the serialised provider of its own inputs, so that later operations use it; unknown providers in a preview fall back to the old ones.", "quantifier": "all request sequences", "why_tests_cant": "histories", "anchors": [{"file": "sdk/python/lib/pulumi/dynamic/__main__.py", "symbols": ["DynamicResourceProviderServicer"]}, {"file": "sdk/python/lib/pulumi/dynamic/dynamic.py", "symbols": ["Resource"]}]}
{"id": "C65", "title": "provider references", "statement": "A provider reference is the provider's URN, the separator and its id (the unknown sentinel when not known); parsing a reference built from any URN and an id that neither contains '::' nor starts with ':' returns both.", "quantifier": "all URNs and ids", "why_tests_cant": "all strings", "anchors": [{"file": "sdk/python/lib/pulumi/resource.py", "symbols": ["ProviderResource", "_parse_resource_reference", "DependencyProviderResource"]}, {"file": "sdk/python/lib/pulumi/runtime/resource.py", "symbols": ["prepare_resource"]}]}
{"id": "C66", "title": "nested synchronous waits lose no ready callbacks", "statement": "Synchronously awaiting from inside a callback, nested to any depth, runs every callback that was ready exactly once and leaves the loop's ready queue without loss or duplication.", "quantifier": "all schedules and nestings", "why_tests_cant": "schedules", "anchors": [{"file": "sdk/python/lib/pulumi/runtime/sync_await.py", "symbols": ["_sync_await"]}]}
{"id": "C67", "title": "configuration bags of different names are separate", "statement": "Setting a variable of one configuration bag never changes what a bag of another name returns for the variable of the same name, nor what the same bag returns for another variable.", "quantifier": "all bag names, keys, values and histories of configuration calls", "why_tests_cant": "all strings and histories", "anchors": [{"file": "sdk/python/lib/pulumi/config.py", "symbols": ["Config", "Config.full_key"]}, {"file": "sdk/python/lib/pulumi/runtime/config.py", "symbols": ["set_config", "get_config"]}]}
{"id": "C68", "title": "function calls use the provider their options call for", "statement": "In every sequence of invokes, each is sent to the provider given in its options, else to the one its parent holds for the function's package, else to none; calling a function does not change the options for later calls.", "quantifier": "all sequences of invokes, options objects shared between them", "why_tests_cant": "histories", "anchors": [{"file": "sdk/python/lib/pulumi/runtime/invoke.py", "symbols": ["invoke"]}, {"file": "sdk/python/lib/pulumi/invoke.py", "symbols": ["InvokeOptions"]}]}
{"id": "C69", "title": "settings do not leak between contexts", "statement": "In every history of configuration calls, mock set-ups, threads and asyncio tasks, each context reads the settings it was last given, by itself or by the context it was copied from; a context never configured sees neither another's values; what set_mocks was told is what the mock monitor uses.", "quantifier": "all histories of contexts and configuration calls", "why_tests_cant": "histories of threads and tasks", "anchors": [{"file": "sdk/python/lib/pulumi/runtime/settings.py", "symbols": ["Settings", "configure", "reset_options"]}, {"file": "sdk/python/lib/pulumi/_utils.py", "symbols": ["ContextProperty", "contextproperty"]}, {"file": "sdk/python/lib/pulumi/runtime/mocks.py", "symbols": ["set_mocks", "MockMonitor.make_urn"]}]}
{"id": "C70", "title": "project settings survive saving and loading", "statement": "Saving project settings in a workspace and loading them back gives equal settings, whatever settings files exist, and disturbs no stack's settings.", "quantifier": "all settings and working directories", "why_tests_cant": "all values", "anchors": [{"file": "sdk/python/lib/pulumi/automation/_local_workspace.py", "symbols": ["LocalWorkspace.save_project_settings", "_load_project_settings"]}, {"file": "sdk/python/lib/pulumi/automation/_project_settings.py", "symbols": ["ProjectSettings"]}]}
{"id": "C71", "title": "engine events are shown as the engine sent them", "statement": "Every event the CLI writes to its log reaches the callback as an object showing its number, its time and each field of its payload under the attribute of its kind, and nothing under the attributes of the other kinds.", "quantifier": "all events of all kinds, with any fields present or absent, and any states inside", "why_tests_cant": "all values", "anchors": [{"file": "sdk/python/lib/pulumi/automation/events.py", "symbols": ["EngineEvent.from_json", "StepEventMetadata.from_json", "StepEventStateMetadata.from_json", "DiagnosticEvent.from_json", "PolicyEvent.from_json"]}]}
{"id": "C72", "title": "dynamic resources can be created any number of times", "statement": "Each dynamic resource carries a text from which its provider is read back; equal providers get equal texts whatever order their dictionaries were filled in and however many were serialised before; creating a resource leaves the caller's properties usable for another.", "quantifier": "all providers and all sequences of dynamic resources", "why_tests_cant": "all values, histories of any length", "anchors": [{"file": "sdk/python/lib/pulumi/dynamic/dynamic.py", "symbols": ["serialize_provider", "Resource.__init__"]}]}
{"id": "C73", "title": "values turned into JSON", "statement": "Turning a value built of plain data and input objects into JSON gives a text that reads back as exactly that data, input objects being objects of their set properties under their Pulumi names; every other value is refused with a TypeError. A JSON document printed by the CLI in any layout is read as the value it denotes.", "quantifier": "all values, input types and document layouts", "why_tests_cant": "all values and strings", "anchors": [{"file": "sdk/python/lib/pulumi/runtime/_json.py", "symbols": ["to_json"]}, {"file": "sdk/python/lib/pulumi/_types.py", "symbols": ["input_type_to_dict"]}, {"file": "sdk/python/lib/pulumi/automation/_cmd.py", "symbols": ["_run_pulumi_cmd"]}]}
{"id": "C74", "title": "configuration set through the Automation API reads back", "statement": "After any sequence of calls that set or remove configuration of any stacks, some of them failing, reading a key gives the value and secretness of the last call that returned and concerned it, reading all gives exactly all, and other stacks are unaffected; calls that raise change nothing.", "quantifier": "all keys, values, maps, stacks and call histories, all failures of the CLI", "why_tests_cant": "all strings and histories", "anchors": [{"file": "sdk/python/lib/pulumi/automation/_local_workspace.py", "symbols": ["LocalWorkspace.set_config", "LocalWorkspace.set_all_config", "LocalWorkspace.get_config", "LocalWorkspace.get_all_config", "LocalWorkspace.remove_config", "LocalWorkspace.remove_all_config"]}]}
{"id": "C75", "title": "history and info tell the stack's updates", "statement": "history() gives all updates of the stack, or the page asked for, the newest first, each with its version, kind, times, message, environment, configuration, result and changes; reading page after page gives every update exactly once; info() gives the newest; secrets are shown only when asked; reading changes nothing.", "quantifier": "all histories of a stack, page sizes, pages, configurations and failures of the CLI", "why_tests_cant": "unbounded histories and page sizes", "anchors": [{"file": "sdk/python/lib/pulumi/automation/_stack.py", "symbols": ["Stack.history", "Stack.info", "UpdateSummary"]}]}
{"id": "C76", "title": "stack outputs are given with their values and secretness", "statement": "outputs() gives exactly the outputs of the stack, each with its plain value, marked secret exactly when it is or holds a secret, at one point in time.", "quantifier": "all outputs, nesting of secrets, and interleavings with other users of the stack", "why_tests_cant": "all values, and schedules between the two commands", "anchors": [{"file": "sdk/python/lib/pulumi/automation/_local_workspace.py", "symbols": ["LocalWorkspace.stack_outputs"]}, {"file": "sdk/python/lib/pulumi/automation/_stack.py", "symbols": ["Stack.outputs"]}]}
{"id": "C77", "title": "stacks are listed as they are", "statement": "list_stacks gives exactly the stacks of the project with their state, and stack() the one that is selected, if any.", "quantifier": "all sets of stacks and selections", "why_tests_cant": "unbounded sets of stacks with every combination of optional fields", "anchors": [{"file": "sdk/python/lib/pulumi/automation/_local_workspace.py", "symbols": ["LocalWorkspace.list_stacks", "LocalWorkspace.stack"]}, {"file": "sdk/python/lib/pulumi/automation/_workspace.py", "symbols": ["StackSummary"]}]}
{"id": "C78", "title": "plugins are listed as they are", "statement": "list_plugins gives exactly the installed plugins, each with its name, kind, version, size, and the times of its installation and last use as declared.", "quantifier": "all sets of plugins, used or not", "why_tests_cant": "all combinations of optional fields", "anchors": [{"file": "sdk/python/lib/pulumi/automation/_local_workspace.py", "symbols": ["LocalWorkspace.list_plugins"]}, {"file": "sdk/python/lib/pulumi/automation/_workspace.py", "symbols": ["PluginInfo"]}]}
{"id": "C79", "title": "states are exported and imported faithfully", "statement": "export_stack gives the state of the stack with its secrets readable and changes nothing; import_stack makes the state of the stack what the CLI makes of the one given, or raises and changes no stack; no other stack changes; importing what was exported restores the stack; in every case no file is left behind.", "quantifier": "all states (any JSON data), stacks, files there are, and failures of the CLI", "why_tests_cant": "all JSON states, and failures at every command", "anchors": [{"file": "sdk/python/lib/pulumi/automation/_local_workspace.py", "symbols": ["LocalWorkspace.export_stack", "LocalWorkspace.import_stack"]}, {"file": "sdk/python/lib/pulumi/automation/_stack.py", "symbols": ["Stack.export_stack", "Stack.import_stack"]}, {"file": "sdk/python/lib/pulumi/automation/_workspace.py", "symbols": ["Deployment"]}]}
{"id": "C80", "title": "every stack is opened with its own program, project and directory", "statement": "create_stack, select_stack and create_or_select_stack open a stack with the program, project name, directory and options given in that call, whatever was opened before, with the same options object or others; the options the user passed and all other directories stay as they are.", "quantifier": "all sequences of calls, options objects shared between them or not, and contents of the directories", "why_tests_cant": "all histories of calls sharing mutable objects", "anchors": [{"file": "sdk/python/lib/pulumi/automation/_local_workspace.py", "symbols": ["create_stack", "select_stack", "create_or_select_stack", "_inline_source_stack_helper", "_local_source_stack_helper", "LocalWorkspaceOptions", "LocalWorkspace.__init__"]}]}
{"id": "C81", "title": "the engine receives exactly the values the program supplied", "statement": "Every value a program passes as an input - plain data, assets, archives, resources, awaitables, outputs, secrets, unknowns, typed inputs, at any depth - is read by the engine as the property value it stands for, under the name it is to be sent with and nothing else.", "quantifier": "all input bags, declared types, feature sets and engine settings", "why_tests_cant": "all nested values, across two programs in two languages", "anchors": [{"file": "sdk/python/lib/pulumi/runtime/rpc.py", "symbols": ["serialize_properties", "serialize_property"]}, {"file": "sdk/go/common/resource/plugin/rpc.go", "symbols": ["UnmarshalProperties", "UnmarshalPropertyValue"]}]}
{"id": "C82", "title": "the program sees exactly the values the engine reports", "statement": "Every property value the engine reports is seen by the program as the value it stands for: data as data, secrets as secret, assets, archives and resources as objects of their classes, unknown values as unknown on a preview and as nothing otherwise.", "quantifier": "all property bags the engine can report, registered resource classes and feature sets", "why_tests_cant": "all nested values, across two programs in two languages", "anchors": [{"file": "sdk/python/lib/pulumi/runtime/rpc.py", "symbols": ["deserialize_properties", "deserialize_property"]}, {"file": "sdk/go/common/resource/plugin/rpc.go", "symbols": ["MarshalProperties", "MarshalPropertyValue"]}]}
{"id": "C83", "title": "a program is run with what the engine's request says", "statement": "For every request to run a program, the program is started and finds exactly the requested project, stack, organization, monitor, engine, parallelism, preview mode, working directory, arguments, configuration and secret keys, and no other configuration.", "quantifier": "all requests, host settings and environments", "why_tests_cant": "all texts in the request, passed through two programs, a command line, the environment and JSON", "anchors": [{"file": "sdk/python/cmd/pulumi-language-python/main.go", "symbols": ["Run", "constructArguments", "constructConfig", "constructConfigSecretKeys"]}, {"file": "sdk/python/cmd/pulumi-language-python-exec", "symbols": ["__main__"]}, {"file": "sdk/python/lib/pulumi/runtime/config.py", "symbols": ["get_config_env", "get_config_secret_keys_env"]}]}
{"id": "C84", "title": "the engine is told how the program ended", "statement": "The engine is told of success exactly if all RPCs the program started have succeeded, no task failed and the program ended well; an exception's message is logged; the engine is told that the user has seen the reason only if something was logged.", "quantifier": "all endings of a program, schedules of RPCs and requests", "why_tests_cant": "all interleavings of RPCs with the end of the program", "anchors": [{"file": "sdk/python/cmd/pulumi-language-python-exec", "symbols": ["__main__"]}, {"file": "sdk/python/lib/pulumi/runtime/stack.py", "symbols": ["run_pulumi_func", "wait_for_rpcs"]}, {"file": "sdk/python/cmd/pulumi-language-python/main.go", "symbols": ["Run"]}]}
{"id": "C85", "title": "a program runs in the project's virtual environment", "statement": "With a virtual environment the program is run by its interpreter, PATH starts with its directory of programs, PYTHONHOME is not set and all other variables keep their values; without one nothing is changed.", "quantifier": "all environments (with any repeated variables), hosts and requests", "why_tests_cant": "all environments", "anchors": [{"file": "sdk/python/python.go", "symbols": ["ActivateVirtualEnv", "VirtualEnvCommand"]}, {"file": "sdk/python/cmd/pulumi-language-python/main.go", "symbols": ["Run"]}]}
{"id": "C86", "title": "requests to the engine say what the program's options say", "statement": "Once everything it waits for has resolved, the registration (or read) of a resource is sent, and it carries the resource's type and name, the URN of its parent (else of the stack), its protection, the reference of its provider, for a remote component every provider given to it, exactly the dependencies declared by depends_on and by its inputs (apart from those that depend on the resource itself), and the remaining options, with property names translated.", "quantifier": "all options (including promised and unknown depends_on values), inputs, worlds of resources, dependency graphs and transformations", "why_tests_cant": "all combinations of options, promises and graphs, composed over transformations, provider selection, serialisation, the cycle breaker and name translation", "anchors": [{"file": "sdk/python/lib/pulumi/runtime/resource.py", "symbols": ["prepare_resource", "register_resource", "read_resource", "_resolve_depends_on_urns", "convert_providers", "_translate_ignore_changes", "_translate_additional_secret_outputs", "_translate_replace_on_changes"]}, {"file": "sdk/python/lib/pulumi/resource.py", "symbols": ["Resource.__init__"]}]}
{"id": "C87", "title": "depending on a component means depending on what was created in it", "statement": "In every history of a program, including one that catches exceptions of resource constructors, depending on a resource means depending on it, or, if it is a local component, on exactly the custom resources and remote components successfully created inside it; a construction that raises changes nothing for other resources.", "quantifier": "all histories of constructions, successful or failing at any point, and all dependents", "why_tests_cant": "all interleavings of failed and successful constructions, nested to any depth", "anchors": [{"file": "sdk/python/lib/pulumi/resource.py", "symbols": ["Resource.__init__", "ComponentResource.__init__", "Resource.urn"]}, {"file": "sdk/python/lib/pulumi/runtime/resource.py", "symbols": ["_add_dependency", "_expand_dependencies"]}]}
{"id": "C88", "title": "operations end as the CLI does, with its results, and leave nothing behind", "statement": "A call of up, preview, refresh or destroy runs the CLI once, with the inline program's language server serving meanwhile if there is one. It gives the CLI's outputs, and the outputs, summary or changes as they then are, if the CLI succeeded, and raises otherwise. When it returns, all events have been delivered, none is delivered later, and no server, directory or thread is left, whatever failed.", "quantifier": "all four operations, all arguments, all failures and all interleavings of the calling thread, the CLI and the watching thread", "why_tests_cant": "schedules of a process and two threads, and failures at every point", "anchors": [{"file": "sdk/python/lib/pulumi/automation/_stack.py", "symbols": ["Stack.up", "Stack.preview", "Stack.refresh", "Stack.destroy", "_create_log_file", "_watch_logs", "_cleanup"]}, {"file": "sdk/python/lib/pulumi/automation/_cmd.py", "symbols": ["_run_pulumi_cmd"]}]}
{"id": "C89", "title": "a program reported successful has run everything it started, without failures", "statement": "When the engine is told that the program succeeded, every RPC, every function given to apply, every awaitable and every message the program started, whenever it did, has ended, and none of them failed; otherwise the exception reported is that of one that failed; and waiting for them ends when they have.", "quantifier": "all programs, all schedules of RPCs and tasks, all failures and cancellations", "why_tests_cant": "interleavings of unboundedly many tasks with the shutdown of the program", "anchors": [{"file": "sdk/python/lib/pulumi/runtime/stack.py", "symbols": ["run_pulumi_func", "wait_for_rpcs", "_get_running_tasks"]}, {"file": "sdk/python/lib/pulumi/runtime/rpc_manager.py", "symbols": ["RPCManager"]}, {"file": "sdk/python/cmd/pulumi-language-python-exec", "symbols": ["main"]}]}
{"id": "C90", "title": "log messages reach the engine", "statement": "Every message logged by a program reaches the engine exactly once, with its severity, text, stream, kind and the URN of its resource, and messages for no resource in the order in which they were logged; without an engine they are printed.", "quantifier": "all sequences of messages, all schedules", "why_tests_cant": "asynchronous messages race with the end of the program", "anchors": [{"file": "sdk/python/lib/pulumi/log.py", "symbols": ["debug", "info", "warn", "error", "_log"]}, {"file": "sdk/go/common/resource/plugin/host_server.go", "symbols": ["hostServer.Log"]}]}
{"id": "C91", "title": "values that fit the annotation of a property are accepted", "statement": "The type annotation of a property says which values it takes, however Optional, Input, InputType and Output are written around it: a value of the engine that fits the annotation of an output is delivered as an object of the annotated type, recursively, and a value that fits the annotation of an input is sent to the engine.", "quantifier": "all annotations, all declared classes, all values", "why_tests_cant": "annotations and values nest without bound", "anchors": [{"file": "sdk/python/lib/pulumi/_types.py", "symbols": ["unwrap_type", "unwrap_optional_type", "_is_optional_type", "_types_from_py_properties"]}, {"file": "sdk/python/lib/pulumi/runtime/rpc.py", "symbols": ["translate_output_properties", "serialize_property", "_get_list_element_type"]}, {"file": "sdk/python/lib/pulumi/output.py", "symbols": ["Input", "InputType"]}]}
{"id": "C92", "title": "declared properties keep their names and types in subclasses", "statement": "A property declared by a class, or by a class it derives from, has the names and the type of its most derived declaration: options that name it by its Python name (additional_secret_outputs, ignore_changes, replace_on_changes) reach the engine with its Pulumi name, and what the engine returns under the Pulumi name becomes the attribute with the Python name and the declared type.", "quantifier": "all classes with all their base classes, all declarations, all lists of names", "why_tests_cant": "class hierarchies and sets of properties are unbounded", "anchors": [{"file": "sdk/python/lib/pulumi/_types.py", "symbols": ["_properties_from_annotations", "_process_class", "_py_properties", "input_type_py_to_pulumi_names", "resource_types", "resource_pulumi_to_py_names", "resource_py_to_pulumi_names"]}, {"file": "sdk/python/lib/pulumi/runtime/resource.py", "symbols": ["register_resource"]}, {"file": "sdk/python/lib/pulumi/runtime/rpc.py", "symbols": ["resolve_properties"]}]}
{"id": "C93", "title": "components constructed for the engine are registered as the engine asks", "statement": "When the engine asks a component provider to construct a component, and the provider creates it with the options it is given, the component is registered with the name, type, parent, protection, dependencies and aliases of the engine's request, and what is created in the component uses the providers of the request.", "quantifier": "all construct requests, all registered packages, all resources created before", "why_tests_cant": "requests name any number of providers, dependencies and aliases, and any resource may be created in the component", "anchors": [{"file": "sdk/python/lib/pulumi/provider/server.py", "symbols": ["ProviderServicer._construct", "ProviderServicer._construct_options", "_create_provider_resource", "_empty_as_none"]}, {"file": "sdk/python/lib/pulumi/resource.py", "symbols": ["Resource.__init__", "DependencyResource", "DependencyProviderResource"]}]}
{"id": "C94", "title": "mixed inputs arrive whole", "statement": "A value that mixes plain data, awaitables and Outputs in any way, with unknown and secret parts anywhere, means the same data to whoever receives it, with what is not known not known, and is secret there exactly if a part of it was secret; a bag of inputs gains no entries and loses only nulls.", "quantifier": "all values and input bags, all nestings of awaitables, Outputs, lists, maps and assets, both ways of sending Outputs", "why_tests_cant": "values nest without bound and every part may independently be plain, awaited, an Output, secret or unknown", "anchors": [{"file": "sdk/python/lib/pulumi/runtime/rpc.py", "symbols": ["serialize_property", "serialize_properties", "deserialize_property", "deserialize_properties", "deserialize_output_value", "wrap_rpc_secret", "unwrap_rpc_secret"]}]}
{"id": "C95", "title": "sending values leaves dependencies as they are", "statement": "Whatever values are sent to the engine at the same time and in whatever order, each sending ends, and the dependencies reported for a value are those it had before anything was sent: none is lost and none is added.", "quantifier": "all lists of values, all nestings of Outputs and resources, all sharings of dependency sets between Outputs, all interleavings of the sendings", "why_tests_cant": "dependencies are kept in sets that Outputs share, and that concurrent sendings read and update in any order", "anchors": [{"file": "sdk/python/lib/pulumi/runtime/rpc.py", "symbols": ["serialize_property"]}, {"file": "sdk/python/lib/pulumi/output.py", "symbols": ["Output.apply", "Output.resources"]}, {"file": "sdk/python/lib/pulumi/runtime/resource.py", "symbols": ["_expand_dependencies"]}]}
{"id": "C96", "title": "method calls through the engine are like direct calls", "statement": "Calling a method of a remote component gives the method the data of every argument, secret where it was secret and unknown where it was unknown, and gives the caller an Output of the data the method returned: known exactly if that data is, secret exactly if a part of it is, depending on exactly the resources the results mention, and failed with the first failure if the method reported failures.", "quantifier": "all arguments and results that mix plain data, awaitables and Outputs in any nesting, all methods, both ways of sending Outputs, preview and update", "why_tests_cant": "the argument passes four translations in two processes and the result four more; which path is taken depends on the nesting of Outputs, secrets and unknowns", "anchors": [{"file": "sdk/python/lib/pulumi/runtime/invoke.py", "symbols": ["call"]}, {"file": "sdk/python/lib/pulumi/provider/server.py", "symbols": ["ProviderServicer.Call", "ProviderServicer._call_args", "ProviderServicer._call_response", "ProviderServicer._select_value"]}]}
{"id": "C97", "title": "who is given a component sees the outputs it registered", "statement": "A component can register any outputs: this succeeds, and from then on every program that is given the component, as an output of something else or by URN, sees exactly these outputs, under the names and with the types its class declares and secret where they were secret, whatever else happens in the deployment.", "quantifier": "all outputs, all histories of a deployment (resources registered and outputs registered, in any order), all programs that look the component up, preview and update", "why_tests_cant": "the outputs travel from one process to the engine and, at any later time, to another; what is seen depends on everything the engine did in between", "anchors": [{"file": "sdk/python/lib/pulumi/runtime/resource.py", "symbols": ["register_resource_outputs", "get_resource"]}, {"file": "sdk/python/lib/pulumi/resource.py", "symbols": ["ComponentResource.register_outputs"]}, {"file": "pkg/resource/deploy/step_executor.go", "symbols": ["ExecuteRegisterResourceOutputs"]}, {"file": "pkg/resource/deploy/builtins.go", "symbols": ["getResource"]}, {"file": "pkg/resource/deploy/source_eval.go", "symbols": ["RegisterResourceOutputs"]}]}
{"id": "C98", "title": "a refactored program keeps its resources", "statement": "A program can be deployed again: every resource is recognised and nothing is deleted. If resources are renamed, given other types, moved to other parents, projects or stacks, and aliases say so - for a component, its children need none - then the next deployment recognises each resource as the one it was, creates exactly those that are new and deletes exactly those the program no longer has.", "quantifier": "all pairs of programs (any number of resources, any nesting, any aliases), all stacks and projects", "why_tests_cant": "whether a resource survives depends on the URNs of all resources before and after, and aliases multiply along the chain of parents; tests try one refactoring at a time", "anchors": [{"file": "sdk/python/lib/pulumi/resource.py", "symbols": ["all_aliases", "inherited_child_alias", "collapse_alias_to_urn", "create_urn"]}, {"file": "sdk/python/lib/pulumi/runtime/resource.py", "symbols": ["prepare_resource", "register_resource"]}, {"file": "pkg/resource/deploy/step_generator.go", "symbols": ["generateSteps", "GenerateDeletes", "checkParent", "generateURN"]}, {"file": "pkg/resource/deploy/deployment.go", "symbols": ["generateURN"]}, {"file": "sdk/go/common/resource/urn.go", "symbols": ["NewURN", "QualifiedType", "Type"]}]}
{"id": "C99", "title": "what one stack exports, another reads through a StackReference", "statement": "Whatever a stack exports under a name, a program of another stack that refers to it reads under that name with get_output or require_output: the same value, secret exactly if the export was secret or contained a secret, and depending on the reference; a name that was not exported is None for get_output and a KeyError for require_output. This holds on previews and updates.", "quantifier": "all exported data (mixing plain values, awaitables and Outputs), all histories of the exporting deployment, all other stacks in the backend, all names (plain or Outputs), previews and updates", "why_tests_cant": "the value passes through two programs, two engines and the stored state; every shape of data and every history matters", "anchors": [{"file": "sdk/python/lib/pulumi/stack_reference.py", "symbols": ["StackReference", "StackReference.get_output", "StackReference.require_output", "StackReference.translate_output_property"]}, {"file": "sdk/python/lib/pulumi/runtime/resource.py", "symbols": ["read_resource", "register_resource_outputs"]}, {"file": "sdk/python/lib/pulumi/runtime/rpc.py", "symbols": ["resolve_outputs", "translate_output_properties"]}, {"file": "pkg/resource/deploy/builtins.go", "symbols": ["readStackReference", "Read"]}, {"file": "pkg/backend/backend.go", "symbols": ["GetStackOutputs"]}, {"file": "pkg/resource/stack/checkpoint.go", "symbols": ["GetRootStackResource"]}]}
{"id": "C100", "title": "a state is read back as it was stored", "statement": "Whatever the engine stores as the state of a stack, with secrets shown or encrypted, is read back as the same state: the same resources in the same order, with the same inputs and outputs, secrets within secrets, assets, archives and references to resources included. A secrets manager that caches ciphertexts never answers with the ciphertext of another text.", "quantifier": "all states (any number of resources, values of any shape and depth), all secrets managers that decrypt what they encrypted, all histories of calls on the caching crypter", "why_tests_cant": "losses depend on the shape of values, on nesting of secrets, on marks the format reserves and on the history of the cache", "anchors": [{"file": "pkg/resource/stack/deployment.go", "symbols": ["SerializeDeployment", "SerializeResource", "SerializePropertyValue", "DeserializeDeploymentV3", "DeserializeResource", "DeserializePropertyValue", "collectCiphertexts"]}, {"file": "pkg/resource/stack/secrets.go", "symbols": ["cachingCrypter", "mapDecrypter"]}, {"file": "sdk/go/common/resource/asset.go", "symbols": ["Asset.Serialize", "Archive.Serialize", "DeserializeAsset", "DeserializeArchive"]}, {"file": "sdk/go/common/resource/config/crypt.go", "symbols": ["DefaultBulkDecrypt", "NopEncrypter"]}]}
{"id": "C101", "title": "of secrets the stored state has the ciphertexts only", "statement": "The stored state of a stack reveals nothing of the contents of secrets beyond the ciphertexts the secrets manager gave: two states that differ only in what their secrets contain, even in shape, are stored as the same document when the secrets manager answers with the same ciphertexts.", "quantifier": "all pairs of states that differ only inside secrets, all answers of the secrets manager", "why_tests_cant": "non-interference is a statement about pairs of runs over all values", "anchors": [{"file": "pkg/resource/stack/deployment.go", "symbols": ["SerializeDeployment", "SerializeResource", "SerializeProperties", "SerializePropertyValue"]}, {"file": "sdk/go/common/apitype/core.go", "symbols": ["SecretV1", "ResourceV3"]}]}
{"id": "C102", "title": "what a program registers as secret is stored only encrypted", "statement": "Whatever a program exports or registers as an output of a component as a secret, at any depth of lists, maps, input objects, awaitables and Outputs, reaches the stored state of the stack only as the ciphertext that the secrets manager gives: two programs that differ only in what their secrets hold, run in deployments in which otherwise the same things happen, leave the same stored document when the secrets manager gives the same ciphertexts, and get the same answers from the engine.", "quantifier": "all pairs of programs' outputs that differ only inside secrets, all histories of the deployment before and after, all answers of the secrets manager", "why_tests_cant": "non-interference is a statement about pairs of runs, over all values and histories, through serialisation, the engine and the store", "anchors": [{"file": "sdk/python/lib/pulumi/runtime/resource.py", "symbols": ["register_resource_outputs"]}, {"file": "sdk/python/lib/pulumi/runtime/rpc.py", "symbols": ["serialize_properties", "serialize_property"]}, {"file": "pkg/resource/deploy/source_eval.go", "symbols": ["RegisterResourceOutputs"]}, {"file": "pkg/resource/deploy/step_executor.go", "symbols": ["ExecuteRegisterResourceOutputs"]}, {"file": "pkg/resource/stack/deployment.go", "symbols": ["SerializeDeployment", "SerializePropertyValue"]}]}
{"id": "C103", "title": "configuration set through the Automation API is what the program sees", "statement": "After any sequence of set_config, set_all_config, remove_config and remove_all_config calls, a program run on a stack finds, with the getters of Config, exactly the configuration that the calls that returned make of what the stack's settings file held before: the values as they were given, whether they were set in plain or as secrets, decrypted also inside structured values, parsed by the typed getters; exactly the secret ones are known to be secret; keys that were removed or never set are missing.", "quantifier": "all projects, all settings files, all ways of encrypting, all failures of the CLI, all sequences of calls, all stacks, all environments the program is started in, all keys and kinds of getters", "why_tests_cant": "the value crosses the command line, encryption, the settings file, the engine, a request, an environment variable as JSON and the program's own parsing; the property ranges over all texts, keys, files and histories", "anchors": [{"file": "sdk/python/lib/pulumi/automation/_local_workspace.py", "symbols": ["set_config", "set_all_config", "remove_config", "remove_all_config", "get_config", "get_all_config"]}, {"file": "pkg/cmd/pulumi/config.go", "symbols": ["newConfigSetCmd", "newConfigSetAllCmd", "newConfigRmCmd", "newConfigRmAllCmd", "getConfig", "listConfig", "getStackConfiguration"]}, {"file": "sdk/go/common/resource/config/value.go", "symbols": ["Value", "unmarshalValue", "marshalValue", "decryptObject"]}, {"file": "sdk/go/common/resource/config/map.go", "symbols": ["Decrypt", "SecureKeys", "UnmarshalYAML", "MarshalYAML"]}, {"file": "pkg/resource/deploy/source_eval.go", "symbols": ["Iterate", "forkRun"]}, {"file": "sdk/go/common/resource/plugin/langruntime_plugin.go", "symbols": ["Run"]}, {"file": "sdk/python/cmd/pulumi-language-python/main.go", "symbols": ["Run", "constructConfig", "constructConfigSecretKeys"]}, {"file": "sdk/python/cmd/pulumi-language-python-exec", "symbols": ["main"]}, {"file": "sdk/python/lib/pulumi/config.py", "symbols": ["Config"]}]}
{"id": "C104", "title": "secret configuration is stored only encrypted", "statement": "A value set as a secret with set_config or set_all_config reaches the stack's settings file only as the ciphertext that the secrets manager gives: programs that make the same calls, but for the values they set as secrets, leave the same files, and get the same answers, when the ciphertexts are the same.", "quantifier": "all settings files, all pairs of sequences of calls that differ only in secret values, all answers of the secrets manager", "why_tests_cant": "non-interference is a statement about pairs of runs, over all values and histories", "anchors": [{"file": "sdk/python/lib/pulumi/automation/_local_workspace.py", "symbols": ["set_config", "set_all_config", "remove_config", "remove_all_config", "get_config", "get_all_config"]}, {"file": "pkg/cmd/pulumi/config.go", "symbols": ["newConfigSetCmd", "newConfigSetAllCmd", "newConfigRmCmd", "newConfigRmAllCmd", "getConfig", "listConfig", "getStackConfiguration"]}, {"file": "sdk/go/common/resource/config/value.go", "symbols": ["Value", "unmarshalValue", "marshalValue", "decryptObject"]}, {"file": "sdk/go/common/resource/config/map.go", "symbols": ["Decrypt", "SecureKeys", "UnmarshalYAML", "MarshalYAML"]}]}
{"id": "C105", "title": "what a program exports is what outputs() gives", "statement": "After an update, outputs() of the Automation API gives under each name the value that the program exported under it, and says that it is secret exactly if there is a secret in it; exports that are None are left out, and nothing else is there.", "quantifier": "all exported values, with Outputs and awaitables anywhere in them, all histories of the deployment, all backends and ways of encrypting, all CLIs, everything that happens between the two commands outputs() runs as long as the state remains", "why_tests_cant": "the value crosses the SDK's serialisation, the engine, the stored and encrypted state, the CLI's masking, JSON text and the Automation API; the property ranges over all values, states and schedules", "anchors": [{"file": "sdk/python/lib/pulumi/automation/_local_workspace.py", "symbols": ["stack_outputs"]}, {"file": "sdk/python/lib/pulumi/automation/_stack.py", "symbols": ["outputs"]}, {"file": "sdk/python/lib/pulumi/runtime/resource.py", "symbols": ["register_resource_outputs"]}, {"file": "pkg/cmd/pulumi/stack_output.go", "symbols": ["newStackOutputCmd", "getStackOutputs"]}, {"file": "pkg/backend/display/json.go", "symbols": ["massagePropertyValue", "MassageSecrets"]}, {"file": "pkg/resource/stack/deployment.go", "symbols": ["SerializeDeployment", "DeserializeDeploymentV3", "SerializeProperties"]}]}
{"id": "C106", "title": "outputs shown without secrets reveal nothing of them", "statement": "What pulumi stack output --json prints without --show-secrets does not depend on the contents of secrets: for any two states that differ only in what is in their secrets, however they are encrypted, the text is the same to the letter.", "quantifier": "all pairs of states that differ only in their secrets, all backends, all places of secrets in outputs", "why_tests_cant": "non-interference is a statement about pairs of runs, over all values", "anchors": [{"file": "pkg/cmd/pulumi/stack_output.go", "symbols": ["newStackOutputCmd", "getStackOutputs"]}, {"file": "pkg/backend/display/json.go", "symbols": ["massagePropertyValue", "MassageSecrets"]}, {"file": "pkg/resource/stack/deployment.go", "symbols": ["SerializeDeployment", "DeserializeDeploymentV3", "SerializeProperties"]}]}
{"id": "C107", "title": "remove_plugin removes exactly the plugins asked for", "statement": "remove_plugin(name, version_range, kind) removes exactly the installed plugins of the kind that have the name, if one is given, and a version in the range, if one is given. Everything else in the directory of plugins stays. When it fails, nothing but plugins that were asked for is gone.", "quantifier": "all directories of plugins, also with incomplete plugins and other things in them, all names, ranges and kinds, all libraries for versions, every set of directories that cannot be removed", "why_tests_cant": "the plugins are told from the names of directories by a regular expression; the property ranges over all names and directories", "anchors": [{"file": "sdk/python/lib/pulumi/automation/_local_workspace.py", "symbols": ["remove_plugin"]}, {"file": "pkg/cmd/pulumi/plugin_rm.go", "symbols": ["newPluginRmCmd"]}, {"file": "sdk/go/common/workspace/plugins.go", "symbols": ["tryPlugin", "getPlugins", "HasPlugin", "HasPluginGTE", "SelectCompatiblePlugin", "InstallWithContext", "Delete"]}]}
{"id": "C108", "title": "install_plugin installs the version asked for and nothing else", "statement": "After install_plugin(name, version, kind) that version of the plugin is completely installed, the plugins that were installed remain and no other one appears. When it fails, whether before, during or after the download, the installed plugins are those that were, and trying again is possible.", "quantifier": "all directories of plugins, also with incomplete plugins left by earlier failures, all names, versions and kinds, all libraries for versions, failures at every point", "why_tests_cant": "the property ranges over all directories, names and points of failure", "anchors": [{"file": "sdk/python/lib/pulumi/automation/_local_workspace.py", "symbols": ["install_plugin"]}, {"file": "pkg/cmd/pulumi/plugin_install.go", "symbols": ["newPluginInstallCmd"]}, {"file": "sdk/go/common/workspace/plugins.go", "symbols": ["tryPlugin", "getPlugins", "HasPlugin", "HasPluginGTE", "SelectCompatiblePlugin", "InstallWithContext", "Delete"]}]}
{"id": "C109", "title": "An exported state can be imported again and says the same", "statement": "export_stack gives a document in which every resource, property, secret and relation of the stack's state is to be read, with all secrets of resources in plaintext, and changes nothing. import_stack of that document, whatever has happened to the stack in between, leaves a state in which all of this is the same, with every secret of the resources encrypted again and only the pending operations gone.", "quantifier": "all states that the CLI can read and that pass its checks, all secrets managers that decrypt what they encrypted, all fields, secrets nested to any depth, stacks that never were updated, all other stacks and files", "why_tests_cant": "the state goes through eight conversions between documents and snapshots, twice through a secrets manager; the property ranges over all states", "anchors": [{"file": "sdk/python/lib/pulumi/automation/_local_workspace.py", "symbols": ["export_stack", "import_stack"]}, {"file": "pkg/cmd/pulumi/stack_export.go", "symbols": ["newStackExportCmd"]}, {"file": "pkg/cmd/pulumi/stack_import.go", "symbols": ["newStackImportCmd"]}, {"file": "pkg/resource/deploy/snapshot.go", "symbols": ["VerifyIntegrity"]}, {"file": "pkg/resource/stack/deployment.go", "symbols": ["SerializeDeployment", "DeserializeDeploymentV3", "DeserializeUntypedDeployment"]}, {"file": "pkg/backend/filestate/backend.go", "symbols": ["ExportDeployment", "ImportDeployment"]}, {"file": "pkg/resource/deploy/providers/reference.go", "symbols": ["ParseReference", "IsProviderType"]}]}
{"id": "C110", "title": "A state is imported only if it is one of the stack's and consistent", "statement": "import_stack succeeds only if the deployment can be read, all its resources are of the given stack, its manifest's cookie belongs to its version, every resource comes after its parent and what it depends on and not before its provider, and no URN is there twice unless the later one is to be deleted; the stack's state then says what the deployment says, without pending operations. Otherwise no stack changes. Nothing else makes it fail, other failures of the CLI aside.", "quantifier": "all deployments of all versions, all stacks, secrets managers, all ways of reading older versions", "why_tests_cant": "the checks are made while going through the list of resources; the property ranges over all lists", "anchors": [{"file": "sdk/python/lib/pulumi/automation/_local_workspace.py", "symbols": ["export_stack", "import_stack"]}, {"file": "pkg/cmd/pulumi/stack_export.go", "symbols": ["newStackExportCmd"]}, {"file": "pkg/cmd/pulumi/stack_import.go", "symbols": ["newStackImportCmd"]}, {"file": "pkg/resource/deploy/snapshot.go", "symbols": ["VerifyIntegrity"]}, {"file": "pkg/resource/stack/deployment.go", "symbols": ["SerializeDeployment", "DeserializeDeploymentV3", "DeserializeUntypedDeployment"]}, {"file": "pkg/backend/filestate/backend.go", "symbols": ["ExportDeployment", "ImportDeployment"]}, {"file": "pkg/resource/deploy/providers/reference.go", "symbols": ["ParseReference", "IsProviderType"]}]}
{"id": "C111", "title": "Operations on one stack never run at the same time", "statement": "When several programs run up, refresh, destroy or import_stack on one stack, or create or remove it, at the same time, at most one of them is at work on the stack, and the stack's state is what it would be if those that got to work had run one after another. One that finds no lock and is left alone completes, and when all have ended no lock is left.", "quantifier": "all numbers of operations, all interleavings of their steps, all failures of the storage, operations interrupted or killed at any step; states kept in files; nobody runs cancel", "why_tests_cant": "the property is about all interleavings with all failures; tests run a few", "anchors": [{"file": "sdk/python/lib/pulumi/automation/_stack.py", "symbols": ["up", "refresh", "destroy", "cancel"]}, {"file": "pkg/backend/filestate/lock.go", "symbols": ["Lock", "Unlock", "checkForLock"]}, {"file": "pkg/backend/filestate/backend.go", "symbols": ["CreateStack", "RemoveStack", "Update", "Import", "Refresh", "Destroy", "ImportDeployment", "CancelCurrentUpdate"]}]}
{"id": "C112", "title": "An operation that is refused changes nothing and says so", "statement": "An operation that is refused because another one is at work on the stack leaves the stack's state as it is and raises ConcurrentUpdateError.", "quantifier": "all interleavings and failures as in C111, all names of users, hosts and files of locks", "why_tests_cant": "the property is about all interleavings; tests run a few", "anchors": [{"file": "sdk/python/lib/pulumi/automation/_stack.py", "symbols": ["up", "refresh", "destroy", "cancel"]}, {"file": "pkg/backend/filestate/lock.go", "symbols": ["Lock", "Unlock", "checkForLock"]}, {"file": "pkg/backend/filestate/backend.go", "symbols": ["CreateStack", "RemoveStack", "Update", "Import", "Refresh", "Destroy", "ImportDeployment", "CancelCurrentUpdate"]}, {"file": "sdk/python/lib/pulumi/automation/errors.py", "symbols": ["create_command_error", "ConcurrentUpdateError"]}]}
{"id": "C113", "title": "A state is saved entirely or not at all", "statement": "When an operation saves a stack's state and is killed at any point, or any of the accesses to the storage fail, the state that is then read is the one before or the new one, and the new one if saving succeeded. Other stacks' states do not change.", "quantifier": "all states before (compressed or not, both kinds of files), all points of a crash, all failures of the storage, all other files", "why_tests_cant": "the property is about every crash point and every combination of failures", "anchors": [{"file": "sdk/python/lib/pulumi/automation/_stack.py", "symbols": ["up", "refresh", "destroy"]}, {"file": "pkg/backend/filestate/state.go", "symbols": ["saveStack", "backupTarget", "getCheckpoint", "stackPath"]}, {"file": "sdk/go/common/util/retry/until.go", "symbols": ["Until"]}]}
{"id": "C114", "title": "Stacks are what the commands have made of them", "statement": "After any series of create_stack, up (or refresh or destroy) and remove_stack: each has succeeded exactly if it should (creating a stack that was not there; updating one that was; removing one that was there and had no resources); each stack's state is the last one its last update saved; history() gives its updates since it was created, the newest first, page by page; list_stacks gives exactly the stacks there are, each once. No stack's commands affect another stack, also if one name begins like another.", "quantifier": "all series of commands on all stacks, all states and numbers of saves per update, states compressed or not as set for each command, all page sizes and pages; states kept in files", "why_tests_cant": "the property is about all histories of commands; tests run a few short ones with one or two stacks", "anchors": [{"file": "sdk/python/lib/pulumi/automation/_local_workspace.py", "symbols": ["create_stack", "remove_stack", "list_stacks"]}, {"file": "sdk/python/lib/pulumi/automation/_stack.py", "symbols": ["up", "refresh", "destroy", "history"]}, {"file": "pkg/backend/filestate/backend.go", "symbols": ["CreateStack", "RemoveStack", "ListStacks", "getLocalStacks", "apply"]}, {"file": "pkg/backend/filestate/state.go", "symbols": ["getStack", "saveStack", "removeStack", "addToHistory", "getHistory", "backupStack"]}, {"file": "pkg/backend/filestate/bucket.go", "symbols": ["listBucket", "removeAllByPrefix"]}]}
{"id": "C115", "title": "Removing a stack removes it or fails", "statement": "remove_stack either removes the stack or raises an error and changes nothing. It raises an error if the stack has resources.", "quantifier": "all states of the storage, all failures of the storage, all names", "why_tests_cant": "the property is about every failure of the storage; tests have none", "anchors": [{"file": "sdk/python/lib/pulumi/automation/_local_workspace.py", "symbols": ["create_stack", "remove_stack", "list_stacks"]}, {"file": "sdk/python/lib/pulumi/automation/_stack.py", "symbols": ["up", "refresh", "destroy", "history"]}, {"file": "pkg/backend/filestate/backend.go", "symbols": ["CreateStack", "RemoveStack", "ListStacks", "getLocalStacks", "apply"]}, {"file": "pkg/backend/filestate/state.go", "symbols": ["getStack", "saveStack", "removeStack", "addToHistory", "getHistory", "backupStack"]}, {"file": "pkg/backend/filestate/bucket.go", "symbols": ["listBucket", "removeAllByPrefix"]}]}
{"id": "C116", "title": "Creating a stack does not touch one that exists", "statement": "create_stack raises an error and changes nothing if the stack exists.", "quantifier": "all states of the storage, all stacks, whether or not their states can be decrypted", "why_tests_cant": "the property is about all states of existing stacks, also those that cannot be read at the moment", "anchors": [{"file": "sdk/python/lib/pulumi/automation/_local_workspace.py", "symbols": ["create_stack", "remove_stack", "list_stacks"]}, {"file": "sdk/python/lib/pulumi/automation/_stack.py", "symbols": ["up", "refresh", "destroy", "history"]}, {"file": "pkg/backend/filestate/backend.go", "symbols": ["CreateStack", "RemoveStack", "ListStacks", "getLocalStacks", "apply"]}, {"file": "pkg/backend/filestate/state.go", "symbols": ["getStack", "saveStack", "removeStack", "addToHistory", "getHistory", "backupStack"]}, {"file": "pkg/backend/filestate/bucket.go", "symbols": ["listBucket", "removeAllByPrefix"]}]}
{"id": "C117", "title": "Stacks can be listed while others work", "statement": "list_stacks lists every stack that is there all the time, while others create, update and remove stacks.", "quantifier": "all series of commands before and during the listing, all points in time at which the stacks are read", "why_tests_cant": "the property is about all interleavings of the listing with others' commands", "anchors": [{"file": "sdk/python/lib/pulumi/automation/_local_workspace.py", "symbols": ["create_stack", "remove_stack", "list_stacks"]}, {"file": "sdk/python/lib/pulumi/automation/_stack.py", "symbols": ["up", "refresh", "destroy", "history"]}, {"file": "pkg/backend/filestate/backend.go", "symbols": ["CreateStack", "RemoveStack", "ListStacks", "getLocalStacks", "apply"]}, {"file": "pkg/backend/filestate/state.go", "symbols": ["getStack", "saveStack", "removeStack", "addToHistory", "getHistory", "backupStack"]}, {"file": "pkg/backend/filestate/bucket.go", "symbols": ["listBucket", "removeAllByPrefix"]}]}
{"id": "C118", "title": "No resource is ever forgotten", "statement": "At every moment of any series of up() and destroy(): each resource that exists, because an update created it and none has deleted it, is recorded in the saved state of the stack, or it is noted there that a resource with its URN is being created (so that the next command can warn).", "quantifier": "all series of updates, all orders in which chains of steps that run beside each other proceed, all answers of providers, all failures of saving, all points at which an update dies", "why_tests_cant": "the property is about every crash point and interleaving; tests kill an update at few points or not at all", "anchors": [{"file": "sdk/python/lib/pulumi/automation/_stack.py", "symbols": ["up", "destroy", "refresh"]}, {"file": "pkg/backend/snapshot.go", "symbols": ["SnapshotManager", "BeginMutation", "snap", "saveSnapshot", "NewSnapshotManager", "markOperationPending", "markOperationComplete"]}, {"file": "pkg/resource/deploy/step.go", "symbols": ["NewDeleteReplacementStep", "NewRemovePendingReplaceStep", "Apply"]}, {"file": "pkg/resource/deploy/step_executor.go", "symbols": ["executeChain", "executeStep"]}, {"file": "pkg/resource/deploy/step_generator.go", "symbols": ["generateSteps", "generateStepsFromDiff", "GenerateDeletes", "calculateDependentReplacements"]}, {"file": "pkg/engine/update.go", "symbols": ["OnResourceStepPre", "OnResourceStepPost"]}]}
{"id": "C119", "title": "Each resource that is recorded exists", "statement": "At every moment of any series of updates: each resource that is recorded in the saved state exists, or it is noted that it is being deleted, or it is marked as pending replacement; and no resource is recorded twice.", "quantifier": "as C118", "why_tests_cant": "as C118", "anchors": [{"file": "sdk/python/lib/pulumi/automation/_stack.py", "symbols": ["up", "destroy", "refresh"]}, {"file": "pkg/backend/snapshot.go", "symbols": ["SnapshotManager", "BeginMutation", "snap", "saveSnapshot", "NewSnapshotManager", "markOperationPending", "markOperationComplete"]}, {"file": "pkg/resource/deploy/step.go", "symbols": ["NewDeleteReplacementStep", "NewRemovePendingReplaceStep", "Apply"]}, {"file": "pkg/resource/deploy/step_executor.go", "symbols": ["executeChain", "executeStep"]}, {"file": "pkg/resource/deploy/step_generator.go", "symbols": ["generateSteps", "generateStepsFromDiff", "GenerateDeletes", "calculateDependentReplacements"]}, {"file": "pkg/engine/update.go", "symbols": ["OnResourceStepPre", "OnResourceStepPost"]}]}
{"id": "C120", "title": "A state without pending operations is exact", "statement": "Whenever the saved state of a stack has no pending operations and no resource marked as pending replacement, it lists exactly the resources that exist.", "quantifier": "as C118", "why_tests_cant": "as C118", "anchors": [{"file": "sdk/python/lib/pulumi/automation/_stack.py", "symbols": ["up", "destroy", "refresh"]}, {"file": "pkg/backend/snapshot.go", "symbols": ["SnapshotManager", "BeginMutation", "snap", "saveSnapshot", "NewSnapshotManager", "markOperationPending", "markOperationComplete"]}, {"file": "pkg/resource/deploy/step.go", "symbols": ["NewDeleteReplacementStep", "NewRemovePendingReplaceStep", "Apply"]}, {"file": "pkg/resource/deploy/step_executor.go", "symbols": ["executeChain", "executeStep"]}, {"file": "pkg/resource/deploy/step_generator.go", "symbols": ["generateSteps", "generateStepsFromDiff", "GenerateDeletes", "calculateDependentReplacements"]}, {"file": "pkg/engine/update.go", "symbols": ["OnResourceStepPre", "OnResourceStepPost"]}]}
{"id": "C121", "title": "refresh_config brings back the configuration of the last update", "statement": "After refresh_config(stack), the configuration of the stack is exactly that of its most recent update: reading it gives the same values and secrets, and a program is given the same configuration, whatever was written to the settings file since. Other stacks and the states stay as they are.", "quantifier": "all sequences of edits of settings files and of stacks being created, updated and removed, all configurations with structured values and secrets", "why_tests_cant": "the property is about every history and every configuration, and goes through a history file, a settings file and two formats", "anchors": [{"file": "sdk/python/lib/pulumi/automation/_local_workspace.py", "symbols": ["refresh_config", "get_all_config"]}, {"file": "pkg/cmd/pulumi/config.go", "symbols": ["newConfigRefreshCmd"]}, {"file": "pkg/backend/filestate/backend.go", "symbols": ["GetLatestConfiguration", "apply", "GetHistory"]}, {"file": "sdk/go/common/resource/config/map.go", "symbols": ["MarshalJSON", "UnmarshalJSON", "MarshalYAML", "UnmarshalYAML"]}]}
{"id": "C122", "title": "up() returns the outputs and summary of its own update", "statement": "The UpResult of up() describes the update that up() made: its outputs are those of the state that this update saved, and its summary is the record of this update, whatever other processes do at the same time.", "quantifier": "all histories before, all commands of others between the commands that up() runs", "why_tests_cant": "the property is about every interleaving with other processes; tests run one process", "anchors": [{"file": "sdk/python/lib/pulumi/automation/_stack.py", "symbols": ["up", "info", "outputs", "history"]}, {"file": "pkg/backend/filestate/backend.go", "symbols": ["apply"]}]}
{"id": "C123", "title": "Resources are deleted after what relies on them", "statement": "When up() or destroy() deletes several resources, the deletion of one begins only after every resource that is deleted too and depends on it, has it as its provider or parent, or depends on a component it is in, is gone. Each is deleted at most once, and all of them are if nothing fails.", "quantifier": "all recorded states, all sets of deletions, any number of workers, all orders in which they proceed, all failures and interruptions", "why_tests_cant": "deletions overlap in every possible way and fail at every point; a test runs one graph with one schedule", "anchors": [{"file": "pkg/resource/deploy/step_generator.go", "symbols": ["ScheduleDeletes", "GenerateDeletes", "GeneratePendingDeletes", "calculateDependentReplacements"]}, {"file": "pkg/resource/graph/dependency_graph.go", "symbols": ["DependenciesOf", "NewDependencyGraph"]}, {"file": "pkg/resource/deploy/deployment_executor.go", "symbols": ["performDeletes", "retirePendingDeletes"]}, {"file": "pkg/resource/deploy/step_executor.go", "symbols": ["ExecuteParallel", "executeChain", "executeStep", "worker"]}]}
{"id": "C124", "title": "Targets limit what is deleted, and nothing is deleted that others rely on", "statement": "destroy(target=...) deletes exactly the given resources, with target_dependents also everything that relies on them; without it, it stops before deleting anything if something else relies on them. An operation with targets never deletes a resource that an existing one relies on.", "quantifier": "all recorded states, targets and options, all schedules and failures of the deletions", "why_tests_cant": "the set is a closure over arbitrary graphs, and the claim holds at each moment of each schedule", "anchors": [{"file": "pkg/resource/deploy/step_generator.go", "symbols": ["GenerateDeletes", "getTargetDependents", "determineAllowedResourcesToDeleteFromTargets"]}, {"file": "pkg/resource/graph/dependency_graph.go", "symbols": ["DependingOn"]}, {"file": "sdk/python/lib/pulumi/automation/_stack.py", "symbols": ["destroy", "up"]}]}
{"id": "C125", "title": "A protected resource is deleted only if the program drops the protection", "statement": "If a resource was created with protect=True, no operation asks its provider to delete it, unless the program registers it with protect off in that operation.", "quantifier": "all recorded states, all programs with all answers of the providers, all options", "why_tests_cant": "the property is about every program and every state, and all the ways by which a resource can be replaced", "anchors": [{"file": "pkg/resource/deploy/step_generator.go", "symbols": ["generateSteps", "generateStepsFromDiff", "GenerateReadSteps", "GenerateDeletes"]}, {"file": "pkg/resource/deploy/step.go", "symbols": ["DeleteStep"]}, {"file": "sdk/python/lib/pulumi/resource.py", "symbols": ["ResourceOptions"]}]}
{"id": "C126", "title": "ignore_changes keeps what is recorded", "statement": "If a recorded resource is declared with ignore_changes, the inputs it is updated with are as recorded at the listed paths and below them, and as the program gave them elsewhere. This also holds if it is replaced for another reason. Paths that cannot be ignored are refused.", "quantifier": "all recorded and new properties, all lists of paths in any order, also overlapping ones, all providers", "why_tests_cant": "properties are arbitrary trees, and the effect of one path on another depends on the order and on what the values share", "anchors": [{"file": "pkg/resource/deploy/step_generator.go", "symbols": ["processIgnoreChanges", "generateSteps", "generateStepsFromDiff"]}, {"file": "sdk/go/common/resource/properties_path.go", "symbols": ["ParsePropertyPath", "Get", "Set", "Delete"]}, {"file": "sdk/python/lib/pulumi/resource.py", "symbols": ["ResourceOptions"]}]}
{"id": "C127", "title": "replace_on_changes replaces on the listed changes and on no others", "statement": "If a property listed in replace_on_changes, or one below it, changes, the resource is replaced, where * stands for any name or index. A change elsewhere updates it in place, unless its provider asks for a replacement.", "quantifier": "all lists of paths with wildcards, all answers of providers, all states the last update may have left", "why_tests_cant": "the answers of providers are unbounded, and each must be decided for every path", "anchors": [{"file": "pkg/resource/deploy/step_generator.go", "symbols": ["applyReplaceOnChanges", "generateStepsFromDiff"]}, {"file": "sdk/go/common/resource/properties_path.go", "symbols": ["Contains", "ParsePropertyPath"]}, {"file": "sdk/go/common/resource/plugin/provider.go", "symbols": ["DiffResult", "Replace"]}, {"file": "sdk/python/lib/pulumi/resource.py", "symbols": ["ResourceOptions"]}]}
{"id": "C128", "title": "An update with targets touches only the targets", "statement": "up(target=[...]) creates, updates, replaces and imports only the given resources, and with target_dependents those that name one of them as parent, provider or dependency, directly or not; new providers are created too. With these it does what an update without targets would do. It stops before creating or changing a resource that depends on one it did not create.", "quantifier": "all programs, recorded states, targets and answers of the providers", "why_tests_cant": "targets spread along arbitrary graphs in the order of registration, and every kind of registration must respect them", "anchors": [{"file": "pkg/resource/deploy/step_generator.go", "symbols": ["isTargetedForUpdate", "generateSteps", "GenerateSteps"]}, {"file": "sdk/python/lib/pulumi/automation/_stack.py", "symbols": ["up"]}]}
{"id": "C129", "title": "An update with targets leaves a record that is complete", "statement": "After up(target=[...]), every parent, provider and dependency that a recorded resource names is recorded as well, so that the next operation can use the record.", "quantifier": "all programs, recorded states, targets and answers of the providers", "why_tests_cant": "it relates every pair of recorded resources after every program; a test looks at one program", "anchors": [{"file": "pkg/resource/deploy/step_generator.go", "symbols": ["generateSteps", "GenerateSteps"]}, {"file": "pkg/resource/deploy/step.go", "symbols": ["NewSkippedCreateStep", "SameStep"]}, {"file": "pkg/backend/snapshot.go", "symbols": ["sameSnapshotMutation"]}]}
{"id": "C130", "title": "What an update with targets leaves out is made later", "statement": "If up(target=[...]) leaves out a change of a resource, a later up() without targets makes it: the resource then exists with the inputs the program gives it.", "quantifier": "all histories of updates with and without the resource among the targets, all providers", "why_tests_cant": "the claim is about unbounded histories and every way a provider may answer", "anchors": [{"file": "pkg/resource/deploy/step_generator.go", "symbols": ["generateSteps", "diffResource"]}, {"file": "pkg/resource/deploy/step.go", "symbols": ["SameStep"]}, {"file": "pkg/backend/snapshot.go", "symbols": ["sameSnapshotMutation"]}, {"file": "sdk/python/lib/pulumi/dynamic/__main__.py", "symbols": ["Diff"]}]}
{"id": "C131", "title": "A refresh leaves a record that can be used", "statement": "After refresh(), whatever the providers answer, which of them fail, and wherever it is cancelled, the record is one that the next operation accepts: parents, dependencies and providers of each resource are recorded before it, and no two resources that are not to be deleted have the same URN.", "quantifier": "all recorded states that can be used, targets, answers of the providers and points of cancellation", "why_tests_cant": "any subset of the resources may be gone, and what is left must fit together in every case", "anchors": [{"file": "pkg/resource/deploy/deployment_executor.go", "symbols": ["refresh", "rebuildBaseState", "undangleParentResources"]}, {"file": "pkg/resource/deploy/snapshot.go", "symbols": ["VerifyIntegrity"]}, {"file": "sdk/python/lib/pulumi/automation/_stack.py", "symbols": ["refresh"]}]}
{"id": "C132", "title": "A refresh records what the providers report", "statement": "After refresh(), each resource that was read is recorded with the ID, the outputs, the inputs and the errors its provider reports; one that is reported missing is no longer recorded; one whose provider fails or was not asked is recorded as before. The refresh fails if a provider fails. With a target that is not recorded nothing changes.", "quantifier": "all recorded states, targets, answers of the providers and points of cancellation", "why_tests_cant": "each resource may have any of several answers, independently of the others", "anchors": [{"file": "pkg/resource/deploy/deployment_executor.go", "symbols": ["refresh", "checkTargets"]}, {"file": "pkg/resource/deploy/step.go", "symbols": ["RefreshStep"]}, {"file": "sdk/go/common/resource/plugin/provider_plugin.go", "symbols": ["Read", "parseError"]}, {"file": "sdk/python/lib/pulumi/automation/_stack.py", "symbols": ["refresh"]}]}
{"id": "C133", "title": "A refresh removes the names of what is gone", "statement": "After refresh(), resources that are gone are not named in the record: they are removed from the dependencies of others and of their properties, and their children are put below the next resource above them that is recorded. All other names are kept.", "quantifier": "all recorded states, targets and answers of the providers", "why_tests_cant": "it relates every pair of resources, for every subset that is gone", "anchors": [{"file": "pkg/resource/deploy/deployment_executor.go", "symbols": ["rebuildBaseState", "undangleParentResources"]}, {"file": "sdk/python/lib/pulumi/automation/_stack.py", "symbols": ["refresh"]}]}
{"id": "C134", "title": "Secret outputs stay secret in a refresh", "statement": "If an output or a property inside of one is secret in the record, it is secret after refresh(), whatever value the provider reports for it. So are the outputs listed in additional_secret_outputs.", "quantifier": "all recorded states, targets, answers of the providers, and paths into the outputs", "why_tests_cant": "outputs nest to any depth, and every shape of the old value can meet every shape of the new one", "anchors": [{"file": "sdk/go/common/resource/plugin/provider_plugin.go", "symbols": ["annotateSecrets", "Read"]}, {"file": "pkg/resource/deploy/step_executor.go", "symbols": ["executeStep"]}, {"file": "sdk/python/lib/pulumi/automation/_stack.py", "symbols": ["refresh"]}]}
{"id": "C135", "title": "import_ adopts the resource that exists", "statement": "If a resource is declared with import_, and none or one with another import ID is recorded, a successful update records the existing resource that the ID stands for, and the inputs of the program are such that its provider finds no difference. Nothing is created or changed; what was recorded before is deleted. If there is no such resource or there is a difference, the update fails, and no resource changes except those that were to be deleted already.", "quantifier": "all providers, recorded states, existing resources and declarations", "why_tests_cant": "it must hold for every resource that may exist and every way in which its inputs differ", "anchors": [{"file": "pkg/resource/deploy/step_generator.go", "symbols": ["generateSteps"]}, {"file": "pkg/resource/deploy/step.go", "symbols": ["ImportStep"]}, {"file": "sdk/python/lib/pulumi/resource.py", "symbols": ["ResourceOptions"]}]}
{"id": "C136", "title": "What is imported is not deleted while it is declared", "statement": "As long as the program declares a resource with the same import_, updates do not delete the existing resource it stands for.", "quantifier": "all providers, import IDs, and histories of updates with any inputs, including those that fail", "why_tests_cant": "the loss shows only after several updates, and depends on what the provider makes of the ID", "anchors": [{"file": "pkg/resource/deploy/step_generator.go", "symbols": ["generateSteps"]}, {"file": "pkg/resource/deploy/step.go", "symbols": ["ImportStep", "SameStep", "UpdateStep"]}, {"file": "sdk/python/lib/pulumi/resource.py", "symbols": ["ResourceOptions"]}]}
{"id": "C137", "title": "up() does what preview() showed", "statement": "If neither the program nor the stack nor the world changes in between, up() does what preview() showed: what is shown as unchanged, created, updated, replaced or deleted is treated so, and nothing else happens to what is recorded. Where values are not known in the preview, it may show more than is done, never less.", "quantifier": "all providers that keep their word, all recorded states, and all programs with any flow of outputs into inputs, applies and configurations of providers", "why_tests_cant": "values that are not known spread through the program, and each may turn out to be anything", "anchors": [{"file": "pkg/resource/deploy/step_generator.go", "symbols": ["generateSteps", "generateStepsFromDiff", "GenerateDeletes"]}, {"file": "sdk/go/common/resource/plugin/provider_plugin.go", "symbols": ["Check", "Diff", "Create", "Update"]}, {"file": "sdk/python/lib/pulumi/runtime/rpc.py", "symbols": ["resolve_outputs", "resolve_properties"]}, {"file": "sdk/python/lib/pulumi/automation/_stack.py", "symbols": ["preview", "up"]}]}
{"id": "C138", "title": "retain_on_delete keeps what was created", "statement": "A resource declared with retain_on_delete is never deleted by up() or destroy(): when it is replaced, no longer declared or destroyed it leaves the state of the stack and stays as it is. Without the option, a removal that succeeds has deleted it and nothing else.", "quantifier": "all providers, all histories of updates and destroys of a resource, and all creations, updates and deletions that fail along the way", "why_tests_cant": "the option in force is the one recorded by an earlier update, so what counts is the history", "anchors": [{"file": "pkg/resource/deploy/step.go", "symbols": ["DeleteStep"]}, {"file": "pkg/resource/deploy/step_generator.go", "symbols": ["GeneratePendingDeletes", "GenerateDeletes", "generateStepsFromDiff"]}, {"file": "pkg/resource/deploy/deployment_executor.go", "symbols": ["retirePendingDeletes"]}, {"file": "sdk/python/lib/pulumi/resource.py", "symbols": ["ResourceOptions"]}, {"file": "sdk/python/lib/pulumi/automation/_stack.py", "symbols": ["up", "destroy"]}]}
{"id": "C139", "title": "What a failed deletion leaves behind is cleaned up by the next operation", "statement": "However updates and destroys failed before, the next up() in which the provider does what it is asked succeeds and leaves exactly the declared resource, and the next such destroy() leaves nothing, neither existing nor recorded.", "quantifier": "all providers, all histories of updates and destroys of a resource, and all creations, updates and deletions that fail along the way", "why_tests_cant": "each failure leaves another record behind, so there is no bound on what has to be cleaned up", "anchors": [{"file": "pkg/resource/deploy/step.go", "symbols": ["DeleteStep"]}, {"file": "pkg/resource/deploy/step_generator.go", "symbols": ["GeneratePendingDeletes", "GenerateDeletes", "generateStepsFromDiff"]}, {"file": "pkg/resource/deploy/deployment_executor.go", "symbols": ["retirePendingDeletes"]}, {"file": "sdk/python/lib/pulumi/resource.py", "symbols": ["ResourceOptions"]}, {"file": "sdk/python/lib/pulumi/automation/_stack.py", "symbols": ["up", "destroy"]}]}
{"id": "C140", "title": "What has to go along with a resource that is deleted before it is replaced goes, and nothing else", "statement": "When a resource is deleted before it is replaced, because of delete_before_replace or its provider, exactly those resources are deleted ahead of it that are recorded after it, are not yet registered, and either belong to a provider that goes or have inputs from something that goes and would be replaced by their provider if these changed. What is only declared with depends_on stays. Nothing is deleted ahead otherwise.", "quantifier": "all recorded states that are in order, all dependencies of inputs, all answers of providers, and all points of an update", "why_tests_cant": "what goes along depends on what else goes along, over graphs of any shape and size", "anchors": [{"file": "pkg/resource/deploy/step_generator.go", "symbols": ["calculateDependentReplacements", "generateStepsFromDiff"]}, {"file": "pkg/resource/graph/dependency_graph.go", "symbols": ["DependingOn"]}, {"file": "sdk/python/lib/pulumi/resource.py", "symbols": ["ResourceOptions"]}, {"file": "sdk/python/lib/pulumi/runtime/resource.py", "symbols": ["prepare_resource"]}]}
{"id": "C141", "title": "A change of what is in an asset or archive is noticed, and nothing else is taken for one", "statement": "An update takes an asset or archive for changed exactly if what is in it has changed since the last update: the contents of the asset, or the files of the archive with their names, contents and permissions. How it is given, by text, path or members, and in which order, makes no difference.", "quantifier": "all assets, and all archives nested in any way, of members, directories, archive files and URIs, and all that may happen to the files in between", "why_tests_cant": "the contents are those of whole trees of files, compared by one hash", "anchors": [{"file": "sdk/go/common/resource/asset.go", "symbols": ["EnsureHash", "Equals", "Open", "readPath", "readAssets", "archiveTar", "addNextFileToTar", "ReadSourceArchive"]}, {"file": "sdk/python/lib/pulumi/asset.py", "symbols": ["FileAsset", "StringAsset", "AssetArchive", "FileArchive"]}]}
{"id": "C142", "title": "Archives have in them what they are made of", "statement": "What a provider gets of an archive has every file of its members, directories and archive files under its path, once, with its contents, and nothing else; if something cannot be had there is an error.", "quantifier": "all archives nested in any way, and all directories with files, directories and links", "why_tests_cant": "directories and archives are nested without bound", "anchors": [{"file": "sdk/go/common/resource/asset.go", "symbols": ["EnsureHash", "Equals", "Open", "readPath", "readAssets", "archiveTar", "addNextFileToTar", "ReadSourceArchive"]}, {"file": "sdk/python/lib/pulumi/asset.py", "symbols": ["FileAsset", "StringAsset", "AssetArchive", "FileArchive"]}]}
{"id": "C143", "title": "Resources without a provider share one default provider for each package, version and URL", "statement": "A resource, read or invoke that names no provider gets a default provider of its own package, with what is configured for this package, in the version and from the plugin URL it asks for, or else the default ones. All that ask for the same package, version and URL get the same provider, which is registered once; those that ask for others get others.", "quantifier": "all sequences of resources, reads and invokes, with any packages, versions and URLs, and all answers of the engine", "why_tests_cant": "requests come from concurrent calls in any order and number, and providers are told apart by strings made of package, version and URL", "anchors": [{"file": "pkg/resource/deploy/source_eval.go", "symbols": ["defaultProviders", "newRegisterDefaultProviderEvent", "handleRequest", "shouldDenyRequest", "getProviderReference", "parseProviderRequest"]}, {"file": "pkg/resource/deploy/providers/provider.go", "symbols": ["ProviderRequest", "NewProviderRequest", "Name", "String"]}, {"file": "sdk/go/common/tokens/names.go", "symbols": ["IntoQName"]}]}
{"id": "C144", "title": "Packages for which default providers are disabled get none", "statement": "If `pulumi:disable-default-providers` lists a package, or `*`, no default provider is registered for it and whatever needs one is refused. All other packages get theirs, and providers that are named are not affected. If the setting cannot be understood there are no default providers.", "quantifier": "all values of the setting, all packages without white space in their names, and all sequences of resources, reads and invokes", "why_tests_cant": "a single path that registers the provider is enough to break it", "anchors": [{"file": "pkg/resource/deploy/source_eval.go", "symbols": ["defaultProviders", "newRegisterDefaultProviderEvent", "handleRequest", "shouldDenyRequest", "getProviderReference", "parseProviderRequest"]}, {"file": "pkg/resource/deploy/providers/provider.go", "symbols": ["ProviderRequest", "NewProviderRequest", "Name", "String"]}, {"file": "sdk/go/common/tokens/names.go", "symbols": ["IntoQName"]}]}
{"id": "C145", "title": "Operations get the custom timeouts that are given for them", "statement": "A create or update gets the timeout for it in the `custom_timeouts` of the run. A delete gets the one of the last run that created, updated or kept what is deleted, whether it is deleted because it is replaced, later than it is replaced, or because it is gone from the program. With timeouts that cannot be read nothing is done.", "quantifier": "all histories of runs of a resource, with any options, decisions, failures and refreshes", "why_tests_cant": "deletes may come any number of runs after the options they depend on", "anchors": [{"file": "pkg/resource/deploy/source_eval.go", "symbols": ["RegisterResource", "generateTimeoutInSeconds"]}, {"file": "pkg/resource/deploy/step.go", "symbols": ["CreateStep", "UpdateStep", "DeleteStep"]}, {"file": "sdk/python/lib/pulumi/resource.py", "symbols": ["CustomTimeouts"]}, {"file": "sdk/python/lib/pulumi/runtime/resource.py", "symbols": ["register_resource"]}]}
{"id": "C146", "title": "Timeouts are as long as they are written", "statement": "A timeout that is written as documented, as in 5m, 40s or 1d, is that long.", "quantifier": "all sequences of numbers and units", "why_tests_cant": "there are infinitely many of them", "anchors": [{"file": "pkg/resource/deploy/source_eval.go", "symbols": ["RegisterResource", "generateTimeoutInSeconds"]}, {"file": "pkg/resource/deploy/step.go", "symbols": ["CreateStep", "UpdateStep", "DeleteStep"]}, {"file": "sdk/python/lib/pulumi/resource.py", "symbols": ["CustomTimeouts"]}, {"file": "sdk/python/lib/pulumi/runtime/resource.py", "symbols": ["register_resource"]}]}
{"id": "C147", "title": "Providers of a program have the plugin that default providers have", "statement": "A provider that a program registers has the version and plugin URL of its options. If it gives none of them, or gives the same as a resource without provider, it has the plugin that the default provider for this resource has.", "quantifier": "all packages, versions, URLs and defaults, and all sequences of resources, reads and invokes", "why_tests_cant": "two places choose the plugin, for any combination of what is given and what is the default", "anchors": [{"file": "pkg/resource/deploy/source_eval.go", "symbols": ["RegisterResource", "newRegisterDefaultProviderEvent", "defaultProviderInfo"]}]}
{"id": "C148", "title": "Outputs listed in additional_secret_outputs are secret, and no others are made so", "statement": "The outputs that a resource lists in `additional_secret_outputs` are secret in the state and for the program, with the values that the provider reported. The other outputs are as the provider reported them.", "quantifier": "all histories of runs of a resource, with any lists and outputs", "why_tests_cant": "an output may be listed any number of runs after it was reported", "anchors": [{"file": "pkg/resource/deploy/step_executor.go", "symbols": ["executeStep"]}, {"file": "pkg/resource/deploy/step.go", "symbols": ["SameStep"]}, {"file": "sdk/python/lib/pulumi/resource.py", "symbols": ["additional_secret_outputs"]}]}
