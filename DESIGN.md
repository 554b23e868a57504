# Formal model of the Pulumi Python SDK in Rocq (Coq 8.16.1)

Sources: `/repo/sdk/python/lib/pulumi` at the pinned commit (paths in the model
comments are relative to that directory).  The development lives in
`rocq/theories`; the logical prefix is `Verif`.

## 1. Method

* Every Python function in scope is transcribed branch by branch into a total
  computable Gallina function (`Model_*.v`).  Each definition carries a comment
  citing file and lines; simplifications are stated there.
* Python exceptions are values (`Exn`); a future that nobody completes is a
  value too (`Pending`), so "never hangs" is a statement about results.
  `await` is the bind of that three-valued monad.
* Things the SDK does not control (user callbacks, the engine's replies, mock
  implementations, transformations, the environment, schedules, crash points)
  are universally quantified arguments, never axioms.
* Schedules are lists of events chosen by an adversary; histories are lists of
  API calls.  Properties over them are invariants proved by induction on those
  lists, with no bound.
* `Spec_*.v` holds the small independent specifications (what a reader of the
  English property would write down).  `Proof_*.v` holds lemmas.  `Prop_*.v`
  holds only the property theorems, each an `exact`, with `Print Assumptions`
  and, beside it, an `Example` that shows a non-trivial instance meeting the
  hypotheses.
* A property the code violates is kept in full: a theorem `..._refuted` exhibits
  the counterexample in the model, and a theorem `..._partial` proves the
  strongest restriction we found.  These are findings, listed in section 4.

## 2. Plan per property

| id | what is modelled | how it is proved |
|----|------------------|------------------|
| C01 C02 C06 C07 C08 | `Output.apply` as a function of the four futures, the mode and an arbitrary callback | case analysis on the future states, resource sets compared as sets; C08 secretness refuted |
| C03 C04 C05 | `Output.all/secret/unsecret/from_input` over the nested value type | structural induction over values |
| C09 | `_map2_output`, `_map2_input` | refuted by witness, restricted version by case analysis |
| C10-C18 C20-C23 | `serialize_property(ies)`, `deserialize_property(ies)` over nested Python values and protobuf structs, including signatures, assets, archives, secrets, output values, resource references, feature switches, key translation | structural induction over values / messages; C13 as a two-run statement; C17 refuted |
| C19 | `contains_unknowns` over a heap (object graph) with identity, cycles and sharing | DFS invariant; equivalence with an inductive reachability relation |
| C24 C25 | `register_resource`, `read_resource`, `get_resource` as step sequences over a store of futures with an exception injected at any step | exhaustive case analysis over crash points with arbitrary property maps, induction over the maps; C25 refuted |
| C26 | `transfer_properties`, `resolve_outputs`, `resolve_properties` | lookup characterisation by induction over the maps |
| C27 | `resource_cycle_breaker` over an arbitrary graph | DFS completeness + invariant over call histories |
| C28 | `_expand_dependencies`, `_add_dependency` over resource forests | induction over the tree; set equality with an inductive specification |
| C29 C31 C32 | alias and URN functions over strings | list induction and string lemmas; C31 refuted for names containing `::` |
| C30 C65 | URN and provider-reference codecs | string split/join lemmas |
| C33 C34 C35 | the option-resolution part of `Resource.__init__` over parent chains | induction over chains and transformation lists |
| C36 C37 C38 | `ResourceOptions.merge`, `InvokeOptions.merge`, instance merge | field-wise algebra; C37 C38 refuted |
| C39 C40 | package/module registries over histories, `check_version` | invariant over histories, permutation independence; C40 refuted |
| C41 | RPC manager and `wait_for_rpcs` as a transition system under an adversarial scheduler | invariant |
| C42 C43 C44 C45 | settings and configuration stores | history induction; C44 C45 refuted in part |
| C46 | `massage` over a heap with identity | termination by fuel bound derived from the heap, invariant over visited objects |
| C47 | `Stack.__init__` with programs as export sequences | induction over the program |
| C48 C49 C53 | stack reference, mock monitor, invoke/call | case analysis, history induction |
| C50 C61 | provider servicer lock, inline language server | transition systems, invariants |
| C51 C52 | construct inputs and responses | induction over maps |
| C54 C55 | `_types` storage, `translate_output_properties` | induction over declarations and values |
| C56 C58 C59 C60 C63 | automation command lines, errors, versions, stack initialisation, captured output | list/string reasoning over all option combinations |
| C57 | settings codec | refuted for structured values; round trip for flat values |
| C62 | writer chunks and reader polls as an interleaved transition system | refuted under partial lines; invariant for whole-line writes |
| C64 | dynamic provider servicer | history induction |
| C66 | ready-queue manipulation of `_sync_await` | multiset invariant |
| C67 | `Config` objects of different names over one configuration store | string lemmas about the key separator, history induction |
| C68 | the provider chosen by `invoke`, with the caller's options object as state | case analysis; refuted for an options object used for two packages |
| C69 | `ContextProperty` and `Settings` over threads, tasks and copied contexts | invariant over histories; refuted for contexts that were never configured |
| C70 | `ProjectSettings` saved to and loaded from files | field-wise, refuted for nested objects |
| C71 | `from_json` of every event class | case analysis per class; refuted for three misspelt keys |
| C72 | `serialize_provider` with a model of pickle's opcodes and of the recursion limit | a pickle reader as specification, induction over values |
| C73 | `to_json`, with `json.dumps` and `json.loads` for integers, strings, lists and dicts | the grammar of RFC 8259 as inductive relation; induction over values and over documents |
| C74 | the configuration calls of LocalWorkspace against a model of the CLI's command line parser and config commands | histories of calls; what the calls that returned should do as specification; invariant over the history |
| C75 | history and info against a model of the CLI's stack history: pages, hidden secrets, updates in progress | relation between an update and the object returned; pages as firstn/skipn; JSON read back by C73's lemmas |
| C76 | stack_outputs with an arbitrary action of others between its two commands | values with secrets inside, their plain form as a relation |
| C77 | list_stacks and stack against a model of stack ls | relation between a stack and its summary |
| C78 | list_plugins against a model of plugin ls | relation between a plugin and its summary |
| C79 | export_stack and import_stack with json.dump's indented text, the temporary file and a CLI that reads it | indented text shown to be JSON by induction; what the CLI reads back is the state |
| C80 | the helpers behind create_stack and its variants, with the options objects as a heap that calls change, the directories and the settings files | invariant over the history of calls; relation between options as written and the workspace |
| C81 | serialize_properties with the engine's own UnmarshalProperties (Go), each with its own protocol constants | relation between supplied values and property values, mutual induction over it |
| C82 | the engine's own MarshalProperties (Go) with deserialize_properties | relation between property values and what is seen of them, mutual induction over it |
| C83 | the Go language host's command line and environment, argparse, the exec script up to running the program | tokens and options by computation over arbitrary texts, JSON by the document relation of C73, environment by the last value of a variable |
| C84 | the exec script's end, run_pulumi_func over the RPC manager's schedules, exit codes, the Go host's response | cases over endings and the invariant of C41 |
| C85 | ActivateVirtualEnv (Go) | induction over the environment |
| C86 | prepare_resource and the requests of register_resource and read_resource, on top of resource construction, serialisation and dependency expansion | composition of C14, C20, C28 and C33 with induction over promised resources, aliases and providers |
| C87 | Resource.__init__ with the sets of children, also when it raises; the objects dependency expansion sees | invariant over histories relating sets of children to parent options, induction over depth, composition with C28 |
| C88 | the four operations as a transition system of the calling thread, the CLI, the event log and the watching thread, with every failure | invariants over all histories, reusing C56, C58, C62, C63 and C71 |
| C89 | the event loop with RPCs, tasks and wait_for_rpcs step by step, refining the model of C41 | invariants over all histories, simulation into Model_RpcManager |
| C90 | log.py on top of the event loop: messages for resources are tasks | a permutation invariant between messages logged, sent and waiting |
| C91 | typing's unions, unwrap_type and what the two directions of the RPC layer make of an annotation, on top of the models of C21 and C55 | induction over values for all annotations; the unions Python builds are computed for abstract types |
| C92 | class statements along the reversed MRO, the three resource tables, decorating a type, and the translations of names in options and outputs | last-write-wins lemmas for dict.update over the concatenated declarations |
| C93 | the options a provider makes from a construct request and the registrations of the component and of its children, on top of the models of C33-C35, C65 and C86 | invariant of the created provider objects; the registrations follow from the theorems about C86 |
| C94 | the serialiser and deserialiser of C08-C15 composed, over a relation giving what a value means once everything in it has resolved | mutual induction on the meaning, in both ways of sending Outputs |
| C95 | the set objects of Outputs as a heap and serialisation as tasks that access it, interleaved by any schedule | rely-guarantee: every task is good whatever the others do within the bounds the invariant gives for each set |
| C96 | caller, engine passing on messages, and provider composed | the meaning of values (C94) carried through both directions, and the choice of what is given as an Output |
| C97 | register_resource_outputs and get_resource with the engine's table of resources as a machine over histories | an invariant of the histories tells what the table holds for a URN; C81/C82 carry the values both ways |
| C98 | all_aliases and the engine's URN generation, matching by URN and aliases and deletion, as a machine over the declarations of a program | induction along the parents: the old URN is among the names a resource goes by; the run against the old URNs is simulated by the run against none |
| C99 | registering the root's outputs, the state the deployment leaves, the backend's lookup of a stack's outputs, reading the reference as a resource and fetching from it | composition of C97 (registration and history), C82 (what a program sees), C04-style resolution of a read and C48; the values seen are shown to be translated to themselves by mutual induction |
| C100 | storing and loading of values, resources and deployments, collection and bulk decryption of ciphertexts, the caching crypter; JSON and encryption as functions with their round trips as hypotheses | induction over values, with fuel for secrets inside secrets; an invariant over calls for the cache; a concrete printer and parser shows that the hypotheses can be met |
| C101 | the same model of storing | non-interference: induction over the first state against a relation that ignores the contents of secrets |
| C102 | registration of outputs by the program (Model_Deployment, Model_Rpc), the engine's reading of them (Model_Engine), the deployment (Model_Deployment), its snapshot (Model_Reference) and the store (Model_State), composed | a relation on values that ignores what known secret Outputs hold is carried through serialisation and reading (induction over the meaning of values), through every step of the deployment (invariant on pairs of deployments) and through the store (C101) |
| C103 | the settings file, config values and encryption, the CLI's commands on files, the engine's request (Model_ConfigFile), composed with the calls (Model_WsConfig), the language host (Model_Host) and Config (Model_Config) | simulation between the commands on files and the commands on configurations of C74, preserved by every command; then C83 and C43 |
| C104 | as for C103 | the effect of each call on the files is computed from its arguments; secret values occur only as arguments of the encryption |
| C105 | the CLI's stack output command over a backend (Model_Outputs), composed with registration and deployment (Model_Register, Model_Deployment), the stored state (Model_State) and stack_outputs (Model_WsState) | structural induction on values from the SDK to property values, from these to what is printed with and without secrets, then C100 and the reading of C76 |
| C106 | as for C105 | masking sends values that differ only in secrets to the same value, by induction; then C100 |
| C107 | the directory of plugins with names as texts, the regular expression, the CLI command and the API call (Model_Plugins); the library for versions is an argument | tryPlugin is characterised by a relation between names of directories and plugins; then induction over what is removed |
| C108 | as for C107 with HasPluginGTE, downloads and the marker for incomplete plugins | case analysis over the points of failure, with the relation of C107 |
| C109 | the documents of deployments with their fields and omitempty, snapshots, secrets managers, the two commands (Model_Import), on top of the model of stored properties (C100) and of the API calls (C79) | reading gives healthy snapshots, and a healthy snapshot can be written and reads the same; composed four times |
| C110 | as for C109 with VerifyIntegrity, the references to providers and the check of the stacks of URNs | the loop of VerifyIntegrity is proved equivalent to a relation over positions in the list, by induction with the resources before |
| C111 | lock files, the two checks around writing one's own, saving, releasing as an interleaving of steps with faults, interruptions and crashes (Model_Lock) | invariant: whoever is past the second check sees all locks written later fail; a history of complete runs is kept along |
| C112 | as for C111, and the text of the error with Model_Cmd's classification (C58) | steps before the lock is held do not write; the text contains no conflict marker |
| C113 | the copies, deletions and attempts to write of saveStack with results and times, and which file is read (Model_Save) | every prefix of the operations keeps an invariant on the two files; C113_refuted by computing the prefix after the deletion |
| C114 | the files of states, histories and backups with their names, and the commands on them (Model_Files, on top of Model_Save) against a map from names to states and lists of updates (Spec_Files) | refinement: an invariant relates every file to the map and is kept by each command; histories are sorted by times in the names |
| C115 | removeStack with the results of each access (Model_Files) | directly; C115_refuted by running it with a fault or with two files |
| C116 | CreateStack with what can be read as a parameter (Model_Files) | directly; C116_refuted by following the state through all files |
| C117 | ListStacks with the files at the time of each reading as a parameter (Model_Files) | the refinement of C114 at each time; C117_refuted by computing |
| C118 | the snapshot manager with its lists of pointers, the chains of steps in their phases, what is saved and what exists, for any order of events (Model_Snapshot); when a run is orderly (Spec_Snapshot) | an invariant of all reachable states: each existing resource is known in memory, the pointers of different chains are apart, what a chain has begun is noted in what is saved; C118_refuted by computing three runs |
| C119 | the same model; when a run is steady (Spec_Snapshot) | a second invariant: records have different IDs, each old resource is used by one step (counted by weights), a deletion that has begun is noted in what is saved; C119_refuted by computing three runs |
| C120 | the same model | from both invariants |
| C121 | settings files (Model_ConfigFile) beside the backend's files (Model_Files); updates record the configuration they load; config refresh and refresh_config (Model_Refresh) | what is loaded from a file survives being written and loaded again, twice; the newest record of a stack is kept by everything that spares it, by the invariant of C114 |
| C122 | the commands at the end of up() with anything in between (Model_Refresh) | as C121, with the state beside the newest record |
| C123 | recorded states as lists; the dependency graph, the rounds of deletions and the workers that perform them (Model_Deletes) | the rounds are a permutation in which dependencies come later, by induction on what is left; an invariant of the workers: what has passed the check of the context belongs to a round before which all is gone |
| C124 | the search for what relies on targets (Model_Deletes) | the search ends, by a measure, and its result is closed and sound; with C123, nothing that exists relies on what is deleted |
| C125 | what the program registers and the steps that are made for it (Model_Deletes) | where each deletion as part of a replacement comes from, by cases; dependents rely on what is replaced |
| C126 | property values as trees, the parser of paths, reading and changing values at paths, and the copy that shares what is below its values with the program's properties (Model_Paths) | an invariant: at the paths done the copy is as recorded, elsewhere as given, and each top-level value is shared or replaced; what is written as documented is parsed to what it means, by induction on the grammar |
| C127 | the answers of providers and what replace_on_changes makes of them (Model_Paths) | the decision is equivalent to a relation between paths, by cases on the answer |
| C128 | registrations, the growing set of targets and the decision for each (Model_Targets) | an invariant along the run: the targets so far are those of an inductive closure over the program, using that what is named comes before |
| C129 | as for C128 | from the check of dependencies against what was skipped, with C128 |
| C130 | one resource over a history of updates, with the inputs recorded and those it exists with (Model_Lost, over Model_Paths) | by cases on the steps of the last update; the counterexample by induction on the number of updates |
| C131 | the refresh step, the answers to Read, and the rebuilding of the record (Model_Rebuild) | induction over the record with the URNs left so far and the parents available; the code's own check is proved equivalent to the specification |
| C132 | as for C131 | by cases on the answers, place by place |
| C133 | as for C131 | a version of the rebuilding that keeps the places of what is gone |
| C134 | as for C131, with nested values | induction on the path |
| C135 | one resource over updates with imports (Model_Adopt) | by cases |
| C136 | as for C135 | an invariant over histories; counterexamples with a provider that accepts names for IDs |
| C137 | programs that declare resources depending on outputs, the engine's answers in previews and updates, and what the program sees of them (Model_Preview) | a simulation between the two runs: what is seen in the preview is less defined than what is seen in the update |
| C138 | a resource through updates, replacements, removals and failures, with its options as recorded (Model_Retain) | an invariant over histories: everything recorded retains, so every deletion leaves what exists alone |
| C139 | as C138, with the records left for deletion (Model_Retain) | an invariant over histories: what exists is a permutation of what is recorded |
| C140 | the inputs of recorded resources, their dependencies and the providers' Diffs (Model_Along), on top of the registrations of Model_Deletes | the walk over the record computes a fixpoint of the specification; induction over places shows that there is no other |
| C141 | trees of files, archives and their hashes (Model_Archives), with the hash, the tar format and archive formats as arguments | equal hashes give equal listings; listings are what is in the archive, by C142; sorting makes the order of members irrelevant |
| C142 | as C141, with a relation for what is in an archive (Spec_Archives) | induction over archives and trees of files |
| C143 | requests, their strings and names, the table of default providers and their registrations (Model_DefaultProv), with the engine, the configuration and the default versions as arguments | an invariant over the run: each provider of the table is backed by a registration, and no two registrations have the same string; strings of ordinary requests are injective |
| C144 | as C143, with the setting as it is parsed | the same invariant, and that trimming white space finds exactly the listed packages |
| C145 | timeouts, runs, and operations of one resource (Model_Timeouts), with all decisions and failures as arguments | an invariant over histories: what is in the state has the timeouts of the last run that touched it |
| C146 | time.ParseDuration for whole numbers (Model_Timeouts) | induction over the parts of the duration |
| C147 | the plugin in the inputs of a provider that is registered (Model_ExplicitProv), next to Model_DefaultProv | cases of what is given, on top of C143 |
| C148 | outputs and runs of one resource (Model_SecretOuts) | induction over the runs since the outputs were reported |

## 3. Trusted base

* Coq 8.16.1's kernel, and its virtual-machine-free checker `coqchk` for a second look.
* `Print Assumptions` of **every** theorem named in MANIFEST.json answers "Closed under the
  global context": no axioms at all, neither our own nor the standard library's.  (A whole-library
  listing also shows the seven opaque constants of `Coq.ssr.ssrunder`, which are loaded with
  ssreflect's library but on which no theorem depends.)
* That the Gallina definitions in `Model_*.v` say what the cited Python lines say.  This is by
  reading only; each definition's comment gives file and lines, and its simplifications.
* That the specifications in `Spec_*.v`, together with the theorem statements in `Prop_*.v`, say
  what properties.jsonl says.  Every `Prop_*.v` has `Example`s meeting the hypotheses.
* Behaviour of things outside the repository, as stated in the model comments: CPython dicts keep
  insertion order and `==` on dicts ignores it; asyncio futures and `run_once` as modelled in
  Model_SyncAwait.v; contextvars are copied when a task is created and not when a thread is; protobuf
  Structs are finite maps of the six kinds of values; `semver` precedence as documented
  (Model_Semver.v); `subprocess.Popen` wants strings; `json`/`yaml` dump and load plain data
  faithfully; pickle's opcodes as in Model_Dynamic.v.  Parsers (`json.loads`, `int`, `float`,
  `VersionInfo.parse`) and everything users, engine and operating system do are universally
  quantified.

### What is modelled

| file | part of /repo/sdk/python/lib/pulumi |
|------|------|
| Model_Output, Model_Deps, Model_Cycle | output.py; runtime/resource_cycle_breaker.py; the dependency expansion of runtime/resource.py |
| Model_Rpc, Model_Unknowns, Model_Translate | runtime/rpc.py: serialisation, deserialisation, `contains_unknowns`, name translation, typed outputs |
| Model_Register, Model_Features, Model_RpcManager, Model_SyncAwait | runtime/resource.py (register, read, get), monitor feature queries, runtime/rpc_manager.py, stack.py `wait_for_rpcs`, runtime/sync_await.py |
| Model_Resource, Model_Options, Model_Urn, Model_Registry, Model_Semver | resource.py (construction, options, aliases, providers, transformations), urn.py, runtime/rpc.py registries |
| Model_Config, Model_Settings | config.py, runtime/config.py, runtime/settings.py |
| Model_Stack, Model_StackRef, Model_Invoke, Model_Mocks | runtime/stack.py, stack_reference.py, runtime/invoke.py, runtime/mocks.py |
| Model_Provider, Model_Server | provider/provider.py, provider/server.py |
| Model_Types | _types.py (declaration, storage, conversion) |
| Model_Cmd, Model_Argv, Model_WsSettings, Model_StackInit, Model_Inline, Model_Events | automation/ |
| Model_Dynamic | dynamic/ |
| Model_Json | runtime/_json.py and the library's json |
| Model_WsConfig | the configuration calls of automation/_local_workspace.py |
| Model_WsState | history, info, stack_outputs, list_stacks, stack and list_plugins of automation/_stack.py and _local_workspace.py |
| Model_WsImport | export_stack, import_stack of automation/_local_workspace.py, Deployment, json.dump with indentation |
| Model_WsOpen | create_stack, select_stack, create_or_select_stack and their helpers, LocalWorkspaceOptions, LocalWorkspace.__init__ with the settings it saves |
| Model_Engine | the engine's side of the wire: sdk/go/common/resource/plugin/rpc.go (MarshalPropertyValue, UnmarshalPropertyValue and what they call) with the options of the resource monitor, properties.go and asset.go (values, digests as an oracle) |
| Model_Host | the Go language host (sdk/python/cmd/pulumi-language-python/main.go Run and constructArguments/Config/ConfigSecretKeys, sdk/python/python.go ActivateVirtualEnv) and cmd/pulumi-language-python-exec with argparse; not GetRequiredPlugins, InstallDependencies, tracing, Windows |
| Model_Request | runtime/resource.py prepare_resource, _resolve_depends_on_urns, convert_providers, the requests of register_resource and read_resource and their name translations; other resources declare no dependencies in between; the answer is modelled in Model_Register |
| Model_Children | resource.py:799-943 with the parent's set of children and the objects of constructors that raised; runtime/resource.py:802 local components |
| Model_Operation | automation/_stack.py:199-560 up, preview, refresh, destroy from call to return; 803-846 log file, watcher thread, _cleanup |
| Model_Loop | runtime/stack.py:38-117 run_pulumi_func, wait_for_rpcs with all tasks; log.py; host_server.go Log |
| Model_Annot | _types.py:735-751, 769-814, 950-1019 reading annotations; output.py:48-50 Input, InputType; typing.Union |
| Model_Class | _types.py:346-505, 537-555, 769-947 tables of names and types of classes; runtime/resource.py:299-349 names in options; rpc.py:1012-1020 |
| Model_Construct | provider/server.py:162-178, 364-365, 402-416 options of constructed components; resource.py:823-826, 1170-1218 dependency resources |
| Model_Sets | rpc.py:229-490 serialize_property (accesses to sets of resources), 976-989; output.py:88-127, 137-233 (set objects of apply); runtime/resource.py:814-825 |
| Model_Deployment | runtime/resource.py:216-252, 680-712 `register_resource_outputs` and the request of `get_resource`; Go: pkg/resource/deploy step_executor.go:151-164, 303-353, source_eval.go:640-688, 1251-1298, builtins.go:277-292 (the table of resources of a running deployment) |
| Model_Refactor | resource.py:928 with Model_Urn's `all_aliases`; Go: sdk/go/common/resource/urn.go:56-107, pkg/resource/deploy deployment.go:396-405, step_generator.go:115-163, 341-375, 905-955 (which old resource a declaration is taken to be, and what is deleted; no targets, plans, external or pending-delete resources) |
| Model_Reference | stack_reference.py:26-68, 94-104; pkg/resource/deploy/builtins.go:148-164, 224-252; source_eval.go:836-923; step.go:630-682; pkg/backend/backend.go:297-321; pkg/resource/stack/checkpoint.go:123-132. Not modelled: reads that fail or replace |
| Model_State | pkg/resource/stack/deployment.go:48, 102-160, 208-287, 290-364, 367-485, 488-539, 542-695; secrets.go:69-123, 138-159, 176-197; sdk/go/common/resource/asset.go:226-289, 561-659; config/crypt.go:54-67, 262-277; apitype/core.go:286-329, 354-358. Not modelled: manifest, pending operations, migration of older versions, states without a secrets manager |
| Model_ConfigFile | sdk/go/common/resource/config/value.go:26-77, 171-219, 242-274, 324-356, map.go:36-80, 380-408, key.go:38-62; pkg/cmd/pulumi/config.go:286-386, 458-674, 744-884, 923-957; pkg/resource/deploy/source_eval.go:95-135, 194-225; sdk/go/common/resource/plugin/langruntime_plugin.go:162-185: settings files, encryption, the request to the language host. Left out: the YAML text, --path keys, config cp and refresh |
| Model_Outputs | pkg/cmd/pulumi/stack_output.go:41-93, 107-122, pkg/cmd/pulumi/util.go:806-814; pkg/backend/display/json.go:34-68; sdk/go/common/resource/config/crypt.go:128-137: the command stack output --json. Left out: output for people, single outputs, the order of keys |
| Model_Plugins | automation/_local_workspace.py:302-317; pkg/cmd/pulumi/plugin_install.go:59-185, plugin_rm.go:50-117; sdk/go/common/workspace/plugins.go:583-621, 695-705, 1171-1298, 1309-1365, 1404-1463, 1785-1831, 1869-1935. Left out: lock files, reinstalling, the contents of plugins, plugins on the PATH; github.com/blang/semver is an argument |
| Model_Import | sdk/go/common/apitype/core.go:143-157, 179-185, 286-329; pkg/resource/stack/deployment.go:102-287, 340-350, 517-526; pkg/resource/deploy/snapshot.go:118-185, manifest.go:84-89; providers/reference.go:35-42, 60-72, 120-152; pkg/cmd/pulumi/stack_export.go:91-114, stack_import.go:70-144; filestate/backend.go:774-825; sdk/go/common/tokens (types). Left out: --force, the contents of manifests and of secrets providers' states, older versions of documents |
| Model_Lock | pkg/backend/filestate/lock.go:60-142; backend.go (CreateStack, RemoveStack, Update, Import, Refresh, Destroy, ImportDeployment: Lock, work, Unlock; CancelCurrentUpdate). Left out: the contents of lock files except in the error, the HTTP backend |
| Model_Save | pkg/backend/filestate/state.go:167-272, 292-311, 352-388; sdk/go/common/util/retry/until.go. Left out: PULUMI_RETAIN_CHECKPOINTS, encodings, integrity check after saving (C110) |
| Model_Files | pkg/backend/filestate/state.go:132-180, 285-295, 318-405, 409-474, 523-552; backend.go:305-341, 357-404, 554-700 (saves, history, backup), 843-880; bucket.go:67-112; pkg/cmd/pulumi/stack_rm.go:63-86. Left out: locks (Model_Lock), tags and validation of names, settings files and the current stack, subdirectories, failures of the engine other than of saving |
| Model_Snapshot | pkg/backend/snapshot.go:58-157, 170-515 (BeginMutation and the mutations), 543-693; pkg/resource/deploy/step.go (Apply of create, create-replacement, same, update, delete, remove-pending-replace, replace; 281-316), step_executor.go:243-385, step_generator.go:575-960, 1611-1740 (which steps, not why); pkg/engine/update.go:509-612. Left out: imports, reads, refreshes, the flag Delete, outputs and inputs, dependencies, integrity checks |
| Model_Refresh | automation/_local_workspace.py:251-255, _stack.py:299-314; pkg/cmd/pulumi/config.go:386-455 with --force; pkg/backend/filestate/backend.go:462-474; map.go:351-408. Left out: the service backend, previews, failed engine runs |
| Model_Deletes | pkg/resource/graph/dependency_graph.go:18-121, 169-187; pkg/resource/deploy/step_generator.go:167-235, 329-466, 585-712, 717-903, 905-1242, 1611-1713; step.go:338-370; deployment_executor.go:414-419, 481-489; step_executor.go. Left out: update plans, what Diff computes (an oracle), refreshes, failed checks of inputs |
| Model_Paths | sdk/go/common/resource/properties_path.go; properties.go:193-199; plugin/provider.go:120-304; pkg/resource/deploy/step_generator.go:372-380, 468-494, 580-671, 724-903, 1423-1457, 1513-1610. Left out: failing checks, changed providers, imports, policies, plans; that values taken from the recorded inputs are shared with the recorded state |
| Model_Targets | pkg/resource/deploy/step_generator.go:37-112, 245-327, 329-715. Left out: the provider's checks, aliases, protection, --replace, previews |
| Model_Lost | pkg/resource/deploy/step_generator.go:372-715, 1365-1392; step.go:123-126; pkg/backend/snapshot.go:268-301; sdk/python/lib/pulumi/dynamic/__main__.py:63-88 |
| Model_Rebuild | pkg/resource/deploy/deployment_executor.go:47-99, 549-732; step.go:729-793; step_executor.go:245-383; snapshot.go:125-182; sdk/go/common/resource/plugin/provider_plugin.go:438-454, 844-960, 1605-1628. Left out: texts of URNs and references, aliases in the record, events |
| Model_Adopt | pkg/resource/deploy/step_generator.go:329-712, 717-903; step.go:123-143, 338-370, 456-495, 891-950, 999-1041; deployment_executor.go:143-432, 480-497: one resource. Left out: targets, protection, retain_on_delete, deletion before replacement, failures of single steps, unhealthy resources |
| Model_Preview | pkg/resource/deploy/step_generator.go:329-903, 905-975, 1328-1392; step.go:123-143, 223-264, 456-495; sdk/go/common/resource/plugin/provider_plugin.go:567-840, 963-1073; runtime/rpc.py:992-1112. Left out: targets, protection, imports, aliases, replacements of dependent resources, failures, registrations at the same time |
| Model_Retain | pkg/resource/deploy/step.go:338-370; step_generator.go:717-903, 905-963, 1137-1155; deployment_executor.go:143-373, 462-505. Left out: deletion before replacement, creations that fail halfway, imports, targets, external resources, several resources |
| Model_Along | pkg/resource/deploy/step_generator.go:1655-1687. Left out: Diffs that fail |
| Model_Archives | sdk/go/common/resource/asset.go:209-224, 310-404, 543-558, 680-905, 965-1019, 1028-1041, 1093-1169. As arguments: SHA256, the tar and archive formats, filepath.Join. Left out: files that may not be read or change while they are read, Windows |
| Model_DefaultProv | pkg/resource/deploy/source_eval.go:247-470, 561-616; pkg/resource/deploy/providers/provider.go:39-116; sdk/go/common/tokens/names.go:65-87. As arguments: the engine's answers, the configuration of packages, default versions and URLs. Left out: parsing versions, JSON and references, version and URL keys in the configuration of a package |
| Model_Timeouts | sdk/python/lib/pulumi/runtime/resource.py:531-554; pkg/resource/deploy/source_eval.go:1058-1081, 1371-1378; pkg/resource/deploy/step.go:230-240, 355-375, 460-490. Left out: signs, fractions and floating point in durations, aliases, protection, retaining on delete |
| Model_ExplicitProv | pkg/resource/deploy/source_eval.go:1010-1033. Left out: versions that cannot be parsed |
| Model_SecretOuts | pkg/resource/deploy/step_executor.go:316-343; pkg/resource/deploy/step.go:123-142. Left out: refreshes (C134), what is inside of outputs |

Not modelled: generated gRPC stubs and protobuf encoding to bytes; log.py's message transport;
the plugin and policy packages; automation's remote workspaces and git handling; the code
generator; typing introspection beyond what Model_Types and Model_Translate need; memory, timing and signal
handling.

## 4. Findings

Behaviour of the code that contradicts the property as a user would state it.  "Proved" names the
theorem that exhibits it in the model; the others were noticed while reading.

| behaviour | proved |
|---|---|
| Output._map2_output (merging Output-valued depends_on) ignores the first output's knownness and secretness | `C09_merge_metadata_refuted` |
| a failing apply drops the secretness of its source | `C08_keeps_secretness_refuted`, `C07_assoc_raising_refuted` |
| an input type without fields is turned into None-like data by from_input | `C05_empty_input_type_refuted` |
| a secret nested in an output value is left as a raw wrapper in a non-secret Output | `C12_refuted` |
| a hidden resource's URN in an unknown output is visible in the message when output values are used | `C13_refuted` |
| archive members whose names start with two underscores are lost | `C15_refuted` |
| keep_unknowns is not passed on inside secrets | `C17_refuted` |
| nested internal keys are dropped even when the caller wants them | `C18_refuted` |
| a read/get whose response cannot be decoded leaves the outputs unresolved for ever | `C25_refuted` |
| create_urn and inherited aliases split at the last "::", also one inside a name | `C31_refuted`, `C32_refuted` |
| a stack transformation registered after a component does not reach that component's later children | `C35_refuted` |
| a.merge(b).merge(c) loses b: merge is bound to the first object | `C37_refuted` |
| InvokeOptions.version defaults to "" and so erases the other operand's version | `C38_refuted` |
| check_version compares minor and patch independently and mishandles prereleases | `C40_refuted` |
| wait_for_rpcs raises the failure of the RPC it awaits, which need not be the first one | `C41_refuted` |
| overlapping feature queries overwrite each other's cached answer | `C42_refuted` |
| require_object treats the JSON document null as a missing value | `C43_refuted` |
| get_config_env_key maps different keys to one variable | `C44_refuted` |
| an object occurring twice in the exports is exported as None the second time; dict keys that are not strings raise | `C46_refuted` |
| if exports cannot be converted, nothing is registered and the program's own exception is lost | `C47_refuted` |
| MockMonitor.Invoke raises TypeError for a mock returning (ret, None), although the types allow it | `C49_no_failures_refuted` |
| RPC_MANAGER.unhandled_exception is never cleared in a provider server: one failure makes all later requests fail | `C50_refuted` |
| construct inputs that hold Outputs lose the dependencies recorded for the property | `C51_refuted` |
| log_verbosity is put into the argument list as an int, so Popen raises TypeError | `C56_verbosity_refuted` |
| an option value equal to "--non-interactive" suppresses that flag | `C56_message_refuted` |
| StackSettings drops numbers, structured values and empty strings | `C57_refuted` |
| blank output of "pulumi version" raises IndexError, even when the check is opted out of | `C59_refuted` |
| a run on a used thread sees its predecessor's configuration or secret keys | `C61_refuted` |
| the event watcher dies when it reads a partially written line | `C62_refuted` |
| dynamic providers: the comparison with the unknown sentinel is never true, so check/diff raise TypeError in previews with an unknown provider | `C64_unknown_refuted` |
| dynamic Read raises TypeError when outs is None | `C64_read_refuted` |
| invoke stores the parent's provider in the caller's InvokeOptions | `C68_refuted` |
| ContextProperty falls back to the value last set by any context; set_mocks is not seen in executor threads | `C69_leak_refuted`, `C69_mocks_refuted` |
| ProjectSettings with runtime, template or backend objects are saved as YAML that cannot be loaded | `C70_refuted` |
| events: streamID, resourceUrn and detailedDiff are read under other names and always None | `C71_refuted` |
| serialize_provider wraps pickle._Pickler._batch_setitems once more on every call: RecursionError after as many dynamic resources as the recursion limit | `C72_refuted` |
| dynamic Resource.__init__ writes into the caller's dict, which cannot be used again | `C72_refuted` |
| ResourceOptions.merge with a tuple of providers drops them | (read) |
| _module_key is ambiguous if a package name contains ":" | `finding_module_key` |
| an asset whose path equals the unknown sentinel stays visible | `finding_asset_sentinel` |
| a dict entry secret(None) deserialises to a key with None, a plain None entry is dropped | `finding_secret_none` |
| _childResources changing during the awaits of dependency expansion raises RuntimeError | (read) |
| convert_providers ignores providers when provider is given | `C86_refuted` |
| output_type_from_dict drops undeclared fields | `finding_undeclared` |
| a component's provider is recorded under the component type's package | `finding_component_provider` |
| invoke with an empty response gives None and does not unwrap secret wrappers | `finding_invoke_result` |
| the mocks' make_urn uses only the last component of the parent's type | `finding_mock_urn` |
| StackReference drops the secretness of its name | `finding_secret_name` |
| rstrip removes trailing white space of captured lines | `finding_rstrip` |
| parallel=0 and message="" count as not requested | `finding_falsy_options` |
| the dot of "Build FAILED." is a regex metacharacter | `finding_build_failed` |
| stacks org1/p/dev and org2/p/dev share one settings file | `finding_shared_settings` |
| the watcher thread never ends if the CLI dies without writing a cancel event | `C88_refuted` |
| a RunError with an empty message is reported as success by inline runs | `finding_run_error` |
| concurrent inline runs share RPC_MANAGER | (read) |
| set_all_config with a key containing "=" sets another variable; a key beginning with a quote likewise | `C74_refuted` |
| set_all_config applies plain values before secret ones, whatever the order of the map | `C74_refuted` |
| remove_all_config([]) raises instead of doing nothing | `C74_refuted` |
| history() without a page size gives only the ten newest updates, though documented to default to all | `C75_default_refuted` |
| history() and info() raise KeyError while an update is in progress, and for secret configuration with show_secrets=False | `C75_refuted` |
| history(page=n) without a page size ignores the page | `finding_page` |
| stack_outputs calls a plain output that reads [secret] a secret, and secrets inside lists and maps not secret | `C76_refuted` |
| stack_outputs runs two commands: an update in between makes it raise, or give a secret as if it were not one | `C76_refuted` |
| PluginInfo declares last_used_time but sets last_used; list_plugins raises KeyError for a plugin that was never used | `C78_refuted` |
| import_stack leaves its temporary file, the state with secrets in plaintext, whenever the command fails (or the state is not JSON) | `C79_refuted` |
| The options object passed to create_stack is changed: passed again, a second inline stack gets the first one's project name, and a local stack runs the inline program and has its Pulumi.yaml overwritten | `C80_reuse_refuted` |
| work_dir='' opens the local program in a new temporary directory | `C80_empty_refuted` |
| A plain string equal to one of the seven placeholders arrives as unknown; a map with the reserved key is rejected or taken for a secret; StringAsset('') is an error and FileArchive('') stops the engine; an unknown secret output sent without output values is not secret | `C81_refuted` |
| Unknown values that are not strings are seen by the program as plain strings (a GUID), on previews as well; an asset of which only the digest is known raises AssertionError | `C82_refuted` |
| A stack or project named -x cannot be run (exit code 2 of argparse); program arguments such as `--stack prod --dry true` change the run; `--` is removed; an empty configuration leaves the surrounding PULUMI_CONFIG; the configuration key secret:keys reads as the list of the secret keys | `C83_refuted` |
| sys.exit(256) and sys.exit() inside an apply are reported as success; sys.exit(32) ends without any message; a program argument --help is reported as success without running the program | `C84_refuted` |
| On Unix a variable Path is modified as PATH (which stays unset), PythonHome is removed | `C85_refuted` |
| A remote component given providers for several packages including its own sends only its own; a path such as bucket_name.inner in replace_on_changes or ignore_changes is sent untranslated; an alias that is not known raises TypeError; reading by a secret id raises TypeError | `C86_refuted` |
| A resource constructor that raises after its transformations (for example for a provider of another package) leaves the half-made object among the children of its parent; once the program has caught the exception, everything that depends on the parent component fails with KeyError: 'urn' | `C87_refuted` |
| preview raises RuntimeError('summary event never found') for a successful preview if the watching thread needs more than five seconds, or if on_event raised for an earlier event; its events are then delivered after the call | `C88_refuted` |
| up or preview with an inline program leaves the language server running if the event log cannot be created | `C88_refuted` |
| an operation with on_event whose CLI fails before the engine starts waits five seconds and leaves a (non-daemon) thread polling for ever, which keeps the process from exiting | `C88_refuted` |
| an exception raised by a function given to apply while RPCs are outstanding is lost: wait_for_rpcs looks only at tasks that are still running when all RPCs have ended, and the program is reported successful | `C89_refuted` |
| a task started by one of the last running tasks (an apply inside an apply) is not waited for: what it was to create is silently not created, and its log messages are lost | `C89_refuted`, `C90_refuted` |
| a list value for a property annotated `Union[str, List[str]]` raises AssertionError, both as an output and (`Input[Union[str, Sequence[str]]]`, `Input[Optional[Sequence[str]]]`) as an input | `C91_refuted` |
| `isInputType` mixes `and` and `or` without parentheses: any union whose second alternative is a dict type is read as its first alternative, so `Union[str, Dict[str, str]]` is str and dict values are rejected | `C91_refuted` |
| `Optional[Output[T]]` is not unwrapped, and `Union[None, T]` fails an assertion when the class's type table is built | `C91_refuted` |
| properties a base class of a resource declares by annotations are ignored for its subclasses: the attribute is never set, its type unknown | `C92_refuted` |
| a subclass of an `@input_type`/`@output_type` class cannot be decorated (AssertionError); undecorated, its own properties are ignored | `C92_refuted` |
| `ignore_changes` and `replace_on_changes` translate whole names only: `rule_list[0]` is sent with the Python name | `C92_refuted` |
| `_construct_options` tests `not _empty_as_none(request.parent)`: the parent of a remote component is dropped, and a request without a parent makes the component's constructor raise AttributeError (`DependencyResource` has no `_transformations`) | `C93_refuted` |
| `deserialize_output_value` does not unwrap a secret nested in the value: an Output whose value holds a secret Output (`o.apply(lambda x: [secret])`) arrives as an Output that is not secret and whose value is the raw secret marker | `C94_refuted` |
| `serialize_property` updates the set object an Output keeps its resources in (rpc.py:386, 395), and `apply` gives its result the same set object: sending `o.apply(lambda _: [p])` makes `o` itself depend on the resource of `p` | `C95_refuted` |
| the same set object is iterated over with awaits in between (rpc.py:390, runtime/resource.py:822): sending `o` as an Output while such an Output is sent fails with RuntimeError (Set changed size during iteration) | `C95_iteration_refuted` |
| `get_resource` does not set acceptResources in its request, so a resource among a component's registered outputs is seen by another program as a string with its id or URN (resource.py:241-252) | `C97_refuted` |
| Calling `register_outputs` twice fails an assertion in the engine, which ends the whole deployment (step_executor.go:154-155) | `C97_refuted` |
| `register_outputs` is declared to take an Output of the outputs, but calls `.items()` on it and fails with TypeError (resource.py:689-700) | `C97_refuted` |
| A component looked up before it registered its outputs is seen without them, with no sign that they are missing | `C97_refuted` |
| `Alias(name=...)` of a resource with `parent=` the stack's resource names a URN with `pulumi:pulumi:Stack$` in it, which the engine never uses: the resource is replaced (resource.py `create_urn`, deployment.go:399) | `C98_refuted` |
| `Alias(project=...)` or `Alias(stack=...)` of a resource with a parent is ignored (`create_urn` takes both from the parent's URN) | `C98_refuted` |
| A child that keeps its name is not recognised under a renamed and retyped parent, if its name happens to start with the parent's new name (`inherited_child_alias`) | `C98_refuted` |
| If `a` is renamed to `b` and `b` to `c` in one step, with aliases, both are taken to be the old `b`, and `a` is deleted (step_generator.go:355-375 looks at the URN first and does not notice) | `C98_refuted` |
| `Alias(parent=r)` where `r` has aliases itself covers only `r`'s new URN | `C98_refuted` |
| A value exported under the name `secretOutputNames`, or a key of that name anywhere inside an export, is read through a StackReference under the name `secret_output_names` only (stack_reference.py:94-104 is applied at every depth, rpc.py:892-905); an exported None cannot be required | `C99_refuted` |
| A text equal to the mark of unknown values (deployment.go:48) and a known output value come back from the state as unknown; an object with the key 4dabf181... and another value is stored but makes the state unreadable (deployment.go:382-384, 559, 683) | `C100_refuted` |
| After the last configuration value of a stack is removed, its program sees the values of a surrounding PULUMI_CONFIG; a key with = given to set_all_config reaches the program as another key with another value | `C103_refuted` |
| set_all_config with a key that begins with a quote stores part of a secret value in the clear, as part of the key | `C104_refuted` |
| Of an export with a secret inside, outputs() gives the whole in plaintext, said not to be secret, although a StackReference to the same stack makes it secret | `C105_refuted` |
| remove_plugin(version_range=r) without a name passes the range in the place of the name: it succeeds and removes nothing | `C107_refuted` |
| install_plugin of a name with an underscore (or any character but letters, digits and dashes) succeeds, but the plugin is then neither found, nor listed, nor removable | `C108_refuted` |
| Versions that end with .tmp and digits are taken for temporary directories and deleted by the next installation of any plugin | `C108_refuted` |
| With backends that keep states in files, an operation refused because of a lock raises CommandError, not ConcurrentUpdateError: create_command_error looks for the HTTP backend's text only. | `C112_refuted` |
| Switching PULUMI_SELF_MANAGED_STATE_GZIP on or off: saveStack deletes the state's file of the other kind before it writes the new one. If the command dies or the write fails, the stack has no state (it is in a .bak file at best; a failed copy is ignored). | `C113_refuted` |
| A stack may be called "." or ".."; its files are then not in the directory of stacks and it is not listed. | `C114_refuted` |
| remove_stack ignores failures to delete files and reports success. If a stack has a compressed and a plain file, removing it deletes the newer one and brings back the older state. | `C115_refuted` |
| create_stack takes any failure to read a stack's state (wrong passphrase, failed integrity check, error of the storage) to mean that there is no such stack, and replaces its state by an empty one. | `C116_refuted` |
| list_stacks fails as a whole if one stack is removed, or is being saved in the other format, while it runs. | `C117_refuted` |
| If a provider dies while it creates a resource, the engine removes the note that the resource is being created, and the resource is forgotten. | `C118_refuted` |
| A resource that is to be deleted before it is replaced is marked when the step is made, not when it is deleted. If the deletion fails and the program then does without the resource, it is dropped from the state but never deleted. | `C118_refuted` |
| If an update dies after a resource was deleted, the next one drops the note of the deletion but keeps the record. | `C119_refuted` |
| A resource that was deleted in order to be replaced is taken for unchanged if the update dies then and the program is reverted. | `C119_refuted` |
| If an update cannot write its record, refresh_config brings back the configuration of an older one than the state was made with. | `C121_refuted` |
| up() reads outputs and summary after the lock is released; it can return those of another process's update. | `C122_refuted` |
| A resource that is deleted before it is replaced, or whose deletion was left over by an interrupted update, is deleted before resources that rely on it and are deleted later in the same operation. | `C123_refuted`, `C123_refuted_pending` |
| up(target=[x]) deletes x if it has left the program, although an untouched resource still relies on it. | `C124_refuted` |
| A protected resource is deleted if something it depends on is deleted before it is replaced (step_generator.go:853, no check of protect), if its declaration gets another import ID, or if another resource is read under its name. | `C125_refuted`, `C125_refuted_import`, `C125_refuted_read` |
| ignore_changes: an item of a list that is not recorded becomes null instead of absent. | `C126_refuted_item` |
| ignore_changes: malformed paths, `*` and paths into secrets are silently without effect. | `C126_refuted_silent` |
| ignore_changes=[""] fails an assertion of the engine. | `C126_refuted_empty` |
| If a resource is replaced, Check is asked with the properties of the program (step_generator.go:785). Properties listed in ignore_changes by name get the new value there, but those listed by a longer path the recorded one, because the copy of the properties is shallow. | `C126_refuted_replacement` |
| replace_on_changes with a nested path has no effect with providers that only name the top-level properties that changed. | `C127_refuted` |
| up(target=...) imports and creates resources that are no targets: those with a new import ID, those that were read before, and those deleted for the replacement of a dependency. | `C128_refuted` |
| The first up(target=...) of a stack records a resource whose parent, the stack, is not recorded; a resource that is kept is recorded with new dependencies that were not created. | `C129_refuted` |
| up(target=...) records the new inputs of resources it leaves out; with dynamic providers without a diff method their change is never made. | `C130_refuted` |
| refresh() drops a resource that exists if its provider reports it unhealthy with a state that cannot be decoded, or without an ID. | `C132_refuted` |
| refresh() leaves children of a resource that is gone without a parent; the code means to put them below the next one above, but only looks among the resources that are left. The unit test does not show it, since it marks resources for deletion instead of dropping them. | `C133_refuted_parent` |
| After refresh(), the dependencies recorded for single properties name resources that are gone. | `C133_refuted_property` |
| refresh() records a secret output in plain if the provider accepts secrets and returns it without the mark. | `C134_refuted` |
| With an import_ that differs from the ID of the resource, which the code allows for, the third update of the same program deletes the resource: only the import itself records the import ID, the next update drops it, and the one after takes the resource for another one. | `C136_refuted` |
| Replacing import_ by the resource's ID right after an import deletes the resource. | `C136_refuted_notation` |
| A preview of a stack where nothing changes can show updates and deletions: an output that is None is unknown in previews also if its resource is unchanged, so what is declared in an apply on it is shown as deleted (rpc.py:1105, 1112). | `C137_refuted_unchanged` |
| If a provider has no previews, as all dynamic providers, the inputs of a resource that will change are shown to the program as its outputs; a resource that uses them can be shown as unchanged and then be updated. | `C137_refuted_inputs` |
| If the configuration of a provider is not known in the preview, its resources are shown as updated and may be replaced. The engine warns of this. | `C137_refuted_replaced` |
| An update that sets `retain_on_delete=True` and changes a property that needs a replacement deletes the old resource: the option recorded before counts (step.go:353). | `C138_refuted` |
| If `protect` is taken away in the same update that replaces the resource and the deletion of the old one fails, the old one is left recorded as protected, and every later `up` and `destroy` fails before doing anything: what is pending is deleted as if not replaced (step_generator.go:1151, step.go:341). Only editing the state helps. | `C139_refuted` |
| `FileArchive(path)` of a symbolic link to a directory, without a slash at its end, is empty, and no error is given: `os.Stat` follows the link and `filepath.Walk` does not (asset.go:822-857). | `C142_refuted_link` |
| Symbolic links to directories within a directory are left out of an archive without a warning (asset.go:849-857). | `C142_refuted_within` |
| Of two members of an archive for the same path one is dropped without a warning (asset.go:972-978). | `C142_refuted_twice` |
| Permissions of files are neither kept in archives nor compared: that a file becomes executable is not a change (asset.go:980-984). | `C141_refuted_permissions` |
| The same files given by a nested archive or directory and given by their paths can have different hashes, as they come in another order. | `C141_refuted_same` |
| The versions `1.0.0-rc1` and `1.0.0+rc1` of a package have default providers of the same name, so that a program that uses both fails with a duplicate URN (provider.go:77-100). | `C143_refuted_name` |
| So have plugin URLs that differ only in characters that are not allowed in names: `IntoQName` makes all of them `_` (names.go:65-87). | `C143_refuted_url` |
| Package, version and URL are joined by `-` in the key of the table of default providers, so that version `1.0.0` with the URL `rc1` gets the provider of version `1.0.0-rc1` (provider.go:103-114). | `C143_refuted_other` |
| `CustomTimeouts` documents `1d`, but `time.ParseDuration` knows no days: the registration fails (resource.py:53-67, source_eval.go:1371-1378). | `C146_refuted_days` |
| A provider that is registered with a version and without a plugin URL is not taken from the default URL of its package, while the default provider for the same version is; likewise for the default version if only a URL is given (source_eval.go:293-324, 1010-1033). | `C147_refuted_url`, `C147_refuted_version` |
| An output that is removed from `additional_secret_outputs` stays secret until the resource is updated, as a resource that is the same keeps its outputs (step.go:126, step_executor.go:319-327). | `C148_refuted_unlisted` |
