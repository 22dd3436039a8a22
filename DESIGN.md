# Design: a Rocq model of mergekit

Source of truth: `/repo` (arcee-ai/mergekit, python), read as text only. Nothing in `/repo`
is executed; every definition in `rocq/theories/*/Model.v` cites the file and lines it models.

## Layout

One directory per area of the code base under `rocq/theories/`:

* `Area/Model.v`  – executable Gallina functions mirroring the Python functions branch by
  branch. Python exceptions are values of `Base.result`. No proofs.
* `Area/Spec.v`   – (where useful) the small vocabulary the property statements use; it does not
  use the model's helpers.
* `Area/Proofs.v` – lemmas.
* `Area/Props.v`  – the property theorems only: `Theorem … Proof. exact lemma. Qed.`, each followed by
  an `Example …_nonvacuous` (a concrete non-trivial instance of its hypotheses) and `Print Assumptions`.

Theorem naming: `Cnn_…`; suffix `_partial` when only part of the English claim is proved (the comment
says what is missing); suffix `_refuted` when the faithful model violates the claim (the witness is a
finding about the code); the remaining true part is then proved beside it.

## Modelling conventions

* Python `dict` = association list in insertion order (`Base.dict`), `d[k]=v` keeps the position of an
  existing key; `set` iteration / `set.pop` order is an oracle argument universally quantified in theorems.
* Exceptions = `Err e` in the `result` monad; the exception class is kept, messages are not.
* Tensors: abstract values `V` when only moved around; lists of rationals `Q` or reals `R` (exact
  arithmetic, no rounding) where the arithmetic matters. Floating-point rounding, NaN/Inf, dtype casts and
  devices are not modelled, except where a row below says so (floating point in Methods/Float, devices in Devices).
* Strings are Coq `string` (bytes); Python's unicode code points are modelled as characters.
* File system: a map from file name to content; every write/rename is one atomic step; a crash keeps a
  prefix of the steps.
* Threads: small-step interleaving; a schedule is any list of choices.
* External calls (torch, transformers, networkx, HF hub, pickle) are replaced by small executable
  definitions of their documented behaviour (e.g. `networkx.lexicographical_topological_sort`,
  `torch.topk`) or by function parameters; each is listed in the "trusted" section at the end.

## Properties: what is modelled and how it is proved

| id | modelled | proof idea |
|----|----------|------------|
| C01 | task trees, `TaskUniverse.add_task`, `build_schedule` (set exploration, networkx lexicographic topological sort), `Executor._run` with eviction | universe invariant (index i denotes tree i, arguments are edges), schedule is a topological order of the reachable set, run invariant "values holds the denotation of every key that has a later use" |
| C02 | same | the schedule is duplicate-free, equals the reachable uncached set, dependencies precede |
| C03 | same, `last_use_index` | characterisation of the backwards scan; exact residency invariant per step |
| C04 | same with cached values | values correct w.r.t. the cached environment; cached targets refuted |
| C05 | heap pop = least key | invariant of the sort loop: the heap is exactly the ready set |
| C06 | the four classification functions, weakly connected components, min-load assignment | set-closure arguments; confluence of the trailing exploration for all pop orders |
| C07 | workers = serial executor on a sub-universe + queue + collector state machine | refinement to C01 when the queue is drained; refuted by an explicit schedule otherwise |
| C08 | `evaluate_setting` over `Q` | piecewise-linear algebra |
| C09 | `evaluate_setting` conditional branch | list induction against a declarative first-match relation |
| C10 | `ConfigReader.parameter` | case analysis against a "first Some in list of levels" spec |
| C11 | `plan_module/plan_slice/plan_layer` | induction over slices with running layer counter |
| C12 | `_model_out_config` + plan | sum of lengths; negative ranges are the corner case |
| C13 | `plan_tensor`, `WeightInfo` | refuted for aliases of optional weights and for unequal source counts; proved under the complementary guards |
| C14 | `normalize_config` | direct |
| C15 | `TensorWriter`, `ShardedTensorIndex.from_disk`, `LazyTensorLoader` over a file-system map | writer state invariant + round trip |
| C16 | same | greedy shard invariant |
| C17 | same, trace of file-system steps | invariant over every prefix of the trace |
| C18 | same with arbitrary initial directory | refuted by a stale index; proved when no foreign index exists |
| C19 | writer with a pool of pending shard writes | commutation of writes to distinct files |
| C20 | `LazyTensorLoader` state machine | history invariant of the current-shard cache |
| C21 | `TorchArchiveReader.open_file` state machine | stream-position invariant |
| C22 | `DeferredLoad` byte arithmetic | refuted for 0-d tensors, proved otherwise |
| C23 | string split/print functions | string induction; exact iff characterisation of printable references |
| C24 | `parse_kmb` | string lemma; "" is a finding |
| C25–C28 | `sparsify.py` over `Q` lists | sorting/counting lemmas |
| C29–C33 | merge arithmetic over `Q`/`R` | field/lra/permutation lemmas |
| C34–C36 | tokenizer build / embedding permutation | dictionary invariants, arithmetic |
| C37 | template substitution, prefixing | injectivity of decimal printing |
| C38–C40 | multimerge graph construction, config patching, crash trace of `run_merge` | DFS invariants, term rewriting, trace prefixes |
| C41 | MoE writers over name→tensor maps | induction over weights × experts |
| C42 | genome → config | list/arith |
| C43 | asynchronous queue state machine | invariants over all schedules |
| C44, C49 | `merge_raw_pytorch.py`: parameter lookup and planning | case analysis, fold invariants over the tensor set in any order |
| C45 | `fill_missing_params.py` on directories | name lemmas, composition with the writer/loader theorems |
| C46, C50 | `extract_lora.py`: decomposition, configuration, planning | orthonormal families and truncation error over `R`; fold invariant of the plan |
| C47 | `tokensurgeon.py`, `tokenizer/normalization.py` | dictionary invariants, row-by-row specification |
| C48 | second `finalize` | file-system trace |
| C51–C54 | `tokensurgeon/{subword,common_interpolation,omp,pca}.py` over `R` | convex combinations; invariant of the incremental QR; uniqueness of the orthogonal factor |
| C55 | `easy_define.py` generated task | permutation lemmas for any set order |
| C56–C61 | `ram`, `sce`, `arcee_fusion`, `nuslerp`, `multislerp`, `karcher` over `R` | sums over positions, order statistics, trigonometric identities, loop invariant (unit vector, orthogonal tangent) |
| C62 | `sparsify.bernoulli` | exact expectation over draws |
| C63, C64 | `io/tasks.py`, the task graphs of `plan_to_disk` and `plan_in_memory`, the loop of `run_merge` (Run) | value of every task by structural evaluation (C01), order of reported targets, composition with planner (C11), loader (C20) and writer (C15, C17) theorems |
| C65 | `architecture/auto.py` (`Arch/Auto.v`) | unique decomposition of names at the first number, template substitution, set-order independence by permutations |
| C66 | `architecture/conversion.py` (`Arch/Conversion.v`) | total order on split names, sorted permutation uniqueness, induction over the transforms |
| C67 | end of `merge.run_merge` (Finish) | priority of writers per file name; counting votes up to permutation |
| C68 | `ModelReference.merged` (`Common/Lora.v`) | invariant over call histories; CRC-32 as a linear injective bit step |
| C69 | `scripts/legacy.py`, `scripts/layershuffle.py` (Scripts) | induction over the argument lists |
| C70 | MoE configuration and gates (`Moe/Gates.v`) | boolean reflection; sums over padded rows; norms of scaled vectors |
| C71 | linear merges in floating point (`Methods/Float.v`) | rounding of a sum tree: exactness, monotonicity, relative error by induction over the tree (Flocq) |
| C72 | task arithmetic, SLERP, passthrough in floating point | Sterbenz, innocuous double rounding, error composition |
| C73 | evaluating a population (actor pool, scores, driver) | invariant over interleavings, measure, naturality in the models |
| C74 | in-memory evaluation | state independence, string lemmas on dotted names |
| C75 | weighting schemes | normal equations, Lagrange multiplier, constructive least squares |
| C76 | rotary rotations and positions | pairs as plane rotations, polar form of atan2, Cauchy-Schwarz |
| C77 | matching pursuits | residual invariant over the rounds, Pythagoras |
| C78 | choice of the architecture definition | table lookup as a fold, templates compared symbolically for all layer counts |
| C79 | methods by name, with their parameters | composition of the planner's reader with each method's arithmetic, then with C63 |
| C80 | the tokens `magikarp.py` takes for well trained | sorted permutations, counting below and above a quantile |
| C81 | the rows of new tokens, and the whole matrix of token surgery | the sorted list of shared tokens is unique; C53, C54, C75, C77 applied to it; full-dimensional least squares are exact |
| C82 | the parameters of a decorated function and what it is called with | the inspection as a filter of the signature; C55 for the call, C79 for the configured values |
| C83 | the bases of sparse token transfer and the rows made from them | the pursuit of C53 on each direction; least squares and independence as in C81 |
| C84 | the cache of loaders shared by threads, and the models it is filled with | invariant over interleavings: no thread is between lookup and storing; the models gathered are followed back through the plan and normalisation |
| C85 | devices of tensors, MergeOptions about them, executors | simulation between the executor on devices and one that moves nothing, with the invariant that cached values are on the storage device; stage by stage for several GPUs |
| C86 | `run_merge` with `multi_gpu`: the planned tasks in `MultiGPUExecutor`, with the calls on the shared writer | stages computed from the shape of the planned graph; values of all stages by C07; the interleaved calls are a permutation of the output, then C15 |
| C87 | `run_merge` recording its configuration, `card.py` | normal form of C14; writing a number of layers that is already there changes nothing; the table of architectures checked by computation; lists of the card by induction |
| C88 | reading and writing configurations (`model_validate`, `model_dump`, `to_yaml`) | readers commute with sorting keys; each reader inverts its writer on well-formed values; planning under a relation of readers that agree on lookups |
| C89 | `PermutedEmbeddings` as a task of a whole run | matrices stored by rows; composition of the permutation theorem (C35), planning of outer weights (C13), runs (C63) and dispatch (C79); finite choice of one row per model |
| C90 | whole runs of passthrough, SLERP and the task arithmetic family; merging a model with itself | composition of C79 (end to end) with the theorems of each method |
| C91 | several merges one after the other, reading what earlier ones wrote (`Run/Stages.v`) | induction over the stages: directories stay sound; extensionality of the specification in the tensors of the directories; induction over prefixes for the order |
| C92 | a whole tokensurgeon run: weights looked up, matrices replaced, configuration, directory (`TokenSurgeon/Whole.v`) | inversion of the run; C47, C20 and C15 for its parts; paths of the configuration that branch off |
| C93 | a whole extraction: the adapter file, and the base model with the adapter loaded (`ExtractLora/Whole.v`) | injectivity of the tensor names; permutations of the plan; C46 and C50 for the parts |
| C94 | a whole mergekit-pytorch run, from the checkpoint files to the writer (`RawPytorch/Whole.v`) | C49 for the plan; the index of a single file agrees with it; permutations of the plan |
| C95 | a whole mergekit-moe run, from the configuration to the writer (`Moe/Whole.v`) | C41 and C70 put together; the shape of the gates in every mode; the tensors of a directory as a dictionary |
| C96 | the configuration mergekit-moe writes (`Moe/OutConfig.v`) | lookups in fields set one after the other; C70 for the bounds, C95 for the routers |
| C97 | MergeOptions from the command line (`Options`) | the parser on written items, by induction on them; C85 for the devices |

The status of each property (proved / partial / refuted part) is kept in `MANIFEST.json`.

## Trusted base

1. Coq 8.16.1's kernel (type checker, `vm_compute` conversion) and the compiler it is built with. No
   kernel check is switched off, no axiom is declared, no plugin is loaded.
2. The standard library's axioms listed per theorem under "Print Assumptions" below. They enter only through
   `Reals` (and Flocq/`Lra`/`Lia`, which add none of their own). The libraries that are loaded also contain opaque
   module constants that a checker may list as axioms (`Coq.ssr.ssrunder.Under_rel.*`,
   `Coq.Reals.Rdefinitions.RbaseSymbolsImpl.*`, `Rdefinitions.RinvImpl.*`); they are sealed definitions of the
   standard library, not assumptions of ours.
3. The faithfulness of the model, i.e. everything in the next two sections. The Python code was read, never run, so
   agreement between model and code rests on reading; every definition cites the lines it stands for.

### What is modelled, by file

| file in `/repo/mergekit` | modelled | not modelled |
|---|---|---|
| `graph.py` | tasks, `TaskUniverse`, `build_schedule`, `Executor._run` (Graph), devices and `_move_tensors` (Devices, C85) | progress bars, `torch.no_grad`, pickling of tasks |
| `multigpu_executor.py` | task classification, islands, assignment, workers, queue, collector (MultiGPU), devices of the stages (Devices, C85), whole merges on several devices with their calls on the writer (Parallel, C86) | CUDA streams, device memory; exceptions in threads are one event |
| `config.py` | `evaluate_setting`, `ConfigReader.parameter` (Config), reading and writing configurations as values (Yaml, C88) | pydantic's messages and its coercion of strings to numbers, `residual_weight` (never read), PyYAML's text: dumping and loading gives the value back with sorted keys |
| `plan.py` | `normalize_config`, `plan*`, `_model_out_config` (Plan) | `MergeMethod.make_task` internals |
| `common.py` | `ModelPath`, `ModelReference` parsing/printing, `parse_kmb`, nested config access (Common, Arch), the adapter cache of `merged` (C68), the file choice of `local_path` (C67) | what transformers and PEFT do in `merged`, `ImmutableMap`, `get_auto_cls`, device lists |
| `io/tensor_writer.py`, `io/lazy_tensor_loader.py`, `io/loader.py` | in full as file-system steps (IO) | bytes inside a shard (serialisation is lossless), memory sharing retry |
| `io/lazy_unpickle.py` | archive reader, `DeferredLoad`, rebuild arguments (Lazy) | pickle opcodes, monkey-patching |
| `io/tasks.py` | all tasks (Run), `LoaderCache` shared by threads (Run/Cache, C84) | what opening a model does, `flush_all`, `clone`; devices only in Devices (C85); group labels and priorities are arbitrary |
| `sparsify.py` | all methods and rescaling norms (Sparsify), float32/float64 rounding of the two places that decide which entries are kept | half precision |
| `merge_methods/{linear,generalized_task_arithmetic,slerp,nearswap,model_stock,passthrough}.py` | arithmetic over exact reals (Methods; see the list of models in `Methods/Model.v`); linear, task arithmetic, slerp and passthrough also in floating point (`Methods/Float.v`) | rounding of the others, dtype promotion, devices |
| `merge_methods/rectify_embed.py` | the trimming of embeddings used by the above | |
| `tokenizer/{build,embed,config,normalization}.py` | vocabulary, added tokens, permutations, embedding rows (Tokenizer, TokenSurgeon), the permutation inside a whole run (Run/Embed, C89) | the tokenizers library itself; saving and reloading a tokenizer preserves what the code observes |
| `architecture/{base,json_definitions}.py`, shipped JSON data | names, templates, prefixes; the JSON files are transcribed as `Arch/Data.v` | |
| `architecture/{__init__,moe_defs}.py`, `_load_all_architectures` | the table, its lookup, AFMoE and GLM-4 modules, agreement of models (C78, `Arch/Choose.v`; the 62 files as `Arch/Table.v`, generated from the JSON) | logging; pydantic turning booleans or numeric strings into numbers |
| `architecture/auto.py` | `infer_architecture_info` (`Arch/Auto.v`) | how transformers is asked for tied weights, embeddings and ignored names (`get_transformers_info`): its answers are arbitrary |
| `architecture/conversion.py` | in full (`Arch/Conversion.v`) | the transforms themselves (transformers); those used by the MoE writers are transcribed there |
| `scripts/multimerge.py` | `load_config`, `make_tasks`, config patching, lazy skipping (Multimerge), merges that read earlier merges (Run/Stages, C91) | click options |
| `moe/*`, `scripts/moe.py` | the four writers, router slicing (Moe); `is_bad_config`, `supports_config`, `select_output_arch`, `get_gate_params` and `build` up to the writer (C70, `Moe/Gates.v`); the whole run (C95, `Moe/Whole.v`); the configuration written (C96, `Moe/OutConfig.v`) | the language model, tokenizer and configuration classes (parameters), `warn_degenerate_gates` |
| `scripts/legacy.py`, `scripts/layershuffle.py` | the configuration written (C69, Scripts) | printing, the run itself (Run) |
| `evo/genome.py`, `evo/strategy.py` | Evo: genomes (C42), buffered (C43), actor-pool and serial strategies (C73, `Evo/Evaluate.v`) | Ray itself, retries |
| `evo/{helpers,actors,config}.py`, `scripts/evolve.py` | scores, on-disk and in-memory evaluators (C73, C74, `Evo/InMemory.v`), benchmark check, conversion of the inputs, callback, final configuration | lm-eval, vLLM, CMA-ES, wandb, `monkeypatch.py` |
| `scripts/merge_raw_pytorch.py` | RawPytorch; the whole run (Whole, C94) | what a dtype cast does (an arbitrary function), devices |
| `scripts/fill_missing_params.py` | FillMissing | subdirectories, downloads |
| `scripts/extract_lora.py` | ExtractLora; the whole run and the loaded adapter (Whole, C93) | convolution weights, dtype casts, devices |
| `scripts/tokensurgeon.py`, `tokensurgeon/*` | matching and assembly (Model), subword, interpolation, OMP, landmark PCA (Approx), weighting schemes (Weights, C75), rotary helpers and matching pursuits (Rope, C76, C77), well-trained tokens (Magikarp, C80), the rows of new tokens (Transplant, C81), sparse token bases (Basis, C83), the whole run (Whole, C92) | debugging output, the random numbers themselves, single precision in the thresholds |
| `card.py` | `is_hf`, `extract_hf_paths`, `modelref_md`, what fills the templates of `generate_card` and `generate_card_lora` (Recorded, C87) | `method_md`, the templates' own text |
| `merge.py` | `_model_out_config`, `_update_config_vocab`, the order of writes of `run_merge` (C40), chat template, tokenizer and tagalong files, card (C67, Finish), the recorded configuration (Recorded, C87) | `post_fill_parameters` (dead code) |
| `options.py` | the validators of `MergeOptions`, and the executor and devices `run_merge` chooses from them (Devices, C85); `add_merge_options` and the command line of `scripts/run_yaml.py` (Options, C97; click's parser is transcribed) | `apply_global_options`, help texts |
| `merge_methods/{ram,sce,arcee_fusion,nuslerp,multislerp,karcher}.py` | arithmetic over exact reals (`Methods/More.v`) | as above |
| `merge_methods/easy_define.py` | `execute` of the generated task (`Methods/Easy.v`), signature inspection and the binding of the call (C82, `Methods/Signature.v`) | class construction; annotations other than the listed forms are one case |
| `merge_methods/{registry,__init__}.py`, `parameters`, `tensor_parameters` and `make_task` of every method | names, defaults, validation of the task's fields, arithmetic run (C79, `Methods/Dispatch.v`) | pretty names, reference URLs; models are strings |
| `merge_methods/registry.py`, other scripts | | not modelled |

### What is assumed about other software

* **Arithmetic.** Over exact `Q`/`R` unless stated. Rounding is modelled in Sparsify's two rounding steps and, for linear merges,
  task arithmetic, SLERP and passthrough, in C71 and C72 (`Methods/Float.v`: round to nearest even through a wider format, any
  order of summation). Nothing is claimed about overflow, NaN or infinity.
* **torch.** `topk`, `argsort`, `max`: some order among equal elements, universally quantified. `linalg.svd`, `linalg.qr`,
  `solve_triangular`, `pca_lowrank`, `softmax`, `bernoulli`: parameters satisfying the contracts `is_svd`, `is_qr`,
  `is_solve`, `is_topk`, `is_pick`, `is_pick_signed`, `is_lstsq` (written in the Spec files), or draws that are function arguments. Where a contract is
  satisfiable for every input an instance is proved (`ApproxInst.v`, `LeastSquares.v`).
* **networkx.** `lexicographical_topological_sort` is transcribed (heap = least key among the ready nodes).
* **tokenizers / transformers.** `add_tokens` numbers new tokens from the size of the vocabulary; `get_vocab` returns the pairs in
  an arbitrary order; saving and loading a tokenizer changes nothing the code looks at; the checkpoint conversion registry
  entries used by the MoE writers are transcribed (`mixtral_registry`, `qwen3_registry`).
* **pydantic.** Frozen models compare by class and fields; a dumped model validates back to the same value.
* **PEFT.** A pattern in `rank_pattern`/`alpha_pattern` is looked up by exact module name.
* **Ray / asyncio.** A task table; any task may finish at any step; submissions may arrive at any step.
* **Python.** `dict` keeps insertion order; iteration over a `set` and `set.pop` follow an arbitrary order that theorems quantify over;
  `int(s, 16)`, `str.isnumeric`, `str.lower` on ASCII only; hash seeds are not modelled otherwise.
* **File system.** Operations are atomic and a crash keeps a prefix; no other process writes to the directory.
* **safetensors / torch.save.** What is written to one file is what is read from it.

### Findings

Each is a theorem ending in `_refuted` or a remark in `MANIFEST.json`; the counterexample is part of the proof. Found by reading, and
outside the model (no theorem):

* `plan.py`: `max_write_threads=` is not a field of `TensorWriterTask`; planning twice duplicates the tensors.
* `config.referenced_models` is built from a set, so the model used as reference may depend on the hash seed.
* `fill_missing_params.py` calls `main()` before the class it uses is defined, so it fails when run as a script.
* `extract_lora.py`: `plan_extraction`'s default `exclude_regexes=None` raises TypeError (the command line passes an empty tuple); `torch.eye(rank)` is on the CPU; bias deltas are saved without
  `lora_bias` in the configuration; a missing base tensor raises TypeError.
* `tokensurgeon.py`: the loop that writes weights allows for an architecture without an output embedding (`lm_head_wi is not None`), but `get_stuff` has already raised AttributeError (C92_no_head_refuted).
* `extract_lora.py`: an optional weight or bias that a model does not store (the biases of granite, glm4 and stablelm2, for instance) ends the extraction in a TypeError (`None - None`), although `SaveTensor` and `LoRAModuleSaveTask` allow for it (C93_optional_refuted).
* `plan.py`, `merge_raw_pytorch.py`, `extract_lora.py`: `TensorWriterTask` is given `max_write_threads`, but its field is called `write_threads` and pydantic ignores unknown fields, so `--write-threads` has no effect in these commands (remark, no theorem).
* `moe/qwen.py`: missing attention biases are filled with `hidden_size // num_attention_heads` zeros per head even if the configuration has another `head_dim` (C95 states the length used; remark).
* `tokensurgeon.py`: `len(num_new_tokens)` of an integer (TypeError) in `john_hewitt`; in-place noise on an expanded tensor in `mean`.
* `evo`: in-memory plans yield `None` for absent optional weights, which `copy_` refuses (TypeError).
* `architecture`: JSON definitions of kind "module" drop tagalong files and the vocabulary-size key; the Whisper decoder prefix lacks a dot.
* `layershuffle.py` compares a `ModelReference` with a string (92), so neighbouring slices are never joined (modelled in C69); `bakllama.py` imports `MergeOptions` from `mergekit.common`, which does not define it, and passes input slices as output slices; `card.is_hf("")` raises IndexError.
* `multigpu_executor.py`: see C07; a lost queue entry re-executes a save.

### Print Assumptions

Output of `Print Assumptions` for every theorem of `MANIFEST.json`, grouped by the axioms it lists:

* **Closed under the global context (no axioms)** (395 theorems): C01_serial_execution_value, C02_exactly_once_after_dependencies, C03_eviction_safe_and_prompt, C04_cached_values_partial, C04_cached_target_never_yielded_refuted, C05_greedy_partial, C05_labels_do_not_change_what_runs, C05_ready_target_overtaken_refuted, C06_partition, C06_rejects_interleaved_main_thread_tasks, C06_order_independent, C06_workers_stay_off_the_main_thread, C07_agrees_with_serial_partial, C07_complete_run_exists, C07_lost_target_refuted, C07_lost_dependency_refuted, C07_per_gpu_target_refuted, C08_piecewise_linear, C08_control_points, C08_constant, C08_monotone, C08_continuous, C08_empty_gradient_raises, C09_first_applicable, C09_unset_iff, C09_no_name, C09_empty_list_refuted, C10_precedence, C10_default, C10_required_raises_iff, C10_other_models_irrelevant, C11_output_layers, C11_no_gap, C11_unequal_sources_rejected, C11_duplicate_source_refuted, C12_layer_count_partial, C12_reversed_range_refuted, C12_shipped_partial, C13_one_task_per_weight, C13_outer_weights_partial, C13_planning_succeeds_partial, C13_optional_alias_raises, C13_optional_alias_refuted, C13_post_weights_truncated_refuted, C13_tied_name_skipped_refuted, C13_every_module_saved, C14_normal_form, C14_idempotent, C15_round_trip, C15_any_read_order, C15_state_dict_refuted, C15_resaved_name_refuted, C15_nothing_saved_refuted, C16_shards, C16_shard_size, C16_total_size, C16_total_size_resaved_refuted, C17_crash, C17_failed_write, C17_reused_directory_refuted, C18_reused_directory_partial, C18_stale_index_refuted, C18_stale_safetensors_refuted, C19_async_is_sync, C20_history, C20_missing, C20_unindexed_refuted, C21_exact_bytes_partial, C21_reopen, C21_after_failed_open_refuted, C22_elements_partial, C22_scalar_refuted, C22_bool_refuted, C22_gaps_refuted, C23_print_then_parse, C23_parse_then_print, C23_which_strings_parse, C23_dump_then_validate, C23_distinct_refs_print_alike_refuted, C24_parse_kmb_exact, C24_documented, C24_only_documented_forms_refuted, C34_add_tokens, C34_union, C34_union_order, C34_build, C34_added_token_lost_refuted, C34_base_source_refuted, C34_gap_refuted, C34_strip, C36_same_size, C37_substitution_meaning, C37_layers_never_collide, C37_templates_never_collide, C37_prefix_commutes, C37_other_shifts_rejected, C37_prefix_spelled_out, C37_prefix_injective, C37_shipped_names_distinct, C37_shipped_layers_disjoint, C37_qwen_projector_refuted, C38_load, C38_rejects_cycles, C38_order, C39_patch_partial, C39_untouched, C39_other_strings_refuted, C39_plus_in_string_refuted, C39_directory_refuted, C40_weights_partial, C40_finished, C40_config_refuted, C40_tokenizer_refuted, C41_mixtral, C41_mixtral_succeeds, C41_qwen3, C41_qwen3_succeeds, C41_deepseek, C41_deepseek_succeeds_partial, C41_shared_expert_refuted, C41_qwen2, C41_qwen2_succeeds_partial, C41_gates, C42_layers_partial, C42_groups_refuted, C42_bounds, C42_values, C42_slerp_partial, C42_slerp_base_refuted, C42_initial, C42_accepted, C42_options, C42_slerp_weights, C42_initial_values, C42_smooth_values, C42_total, C43_answer, C43_bounds, C43_never_lost, C43_all_answered_partial, C43_invalid_refuted, C43_starvation_refuted, C44_global, C44_global_required, C44_explicit_partial, C44_fallback_partial, C44_unset_raises_refuted, C44_default_needs_global_refuted, C44_all_set, C44_explicit_replaced_refuted, C45_prefix, C45_filled_partial, C45_too_small, C45_stale_index_refuted, C45_plain_name_dropped_refuted, C45_order_refuted, C46_recorded_rank, C46_nothing_extracted_refuted, C47_size, C47_exact, C47_byte, C47_prefix, C47_approximated, C47_batching, C47_zeroed, C47_succeeds, C47_normalized, C47_token, C47_missing, C47_options_partial, C47_options_swapped_refuted, C47_stb_refuted, C47_magikarp, C47_saved, C47_special_tokens_refuted, C47_beyond_donor_refuted, C47_minus_sign_refuted, C48_second_finalize_raises, C49_planned, C49_missing_raises, C49_loads_partial, C49_union_refuted, C49_base_only_refuted, C50_plan, C50_modules_to_save, C50_full, C50_lora, C50_excluded, C50_save_module_refuted, C50_order_refuted, C55_base_separate, C55_no_base, C55_base_first, C55_base_first_refuted, C55_order_refuted, C63_run, C63_directory, C63_directory_async, C63_end_to_end, C63_same_name_refuted, C64_memory_agrees_partial, C64_optional_refuted, C65_layer_number, C65_covers, C65_flags, C65_empty, C65_unknown_model_refuted, C65_order, C65_stripped_refuted, C65_ignored_refuted, C65_tied_unknown_refuted, C66_sorting_total, C66_numeric, C66_experts_in_order, C66_promise_kept, C66_renamed, C66_targets, C66_chained, C66_single_expert_refuted, C66_stops_early_refuted, C66_two_ways_refuted, C67_auto, C67_auto_order, C67_named, C67_files, C67_raises, C67_untouched, C67_long_template_refuted, C67_bad_template_refuted, C67_hub_refuted, C67_tie_refuted, C67_blank_refuted, C67_trust_refuted, C68_first_use, C68_own_merge, C68_returns, C68_failure_kept_refuted, C68_dtype_refuted, C68_close_names, C68_collision_refuted, C69_legacy, C69_legacy_accepts, C69_shuffled, C69_full_random, C69_naive_count_refuted, C69_deep_layers_refuted, C69_layershuffle_refuted, C70_accepted, C70_supported, C70_selected, C70_single_expert_refuted, C70_uniform_prompts_refuted, C70_random_same_refuted, C71_formats_round_once, C73_naughty, C73_score, C73_score_order, C73_asked, C73_pool_results, C73_pool_disk, C73_pool_finishes, C73_serial, C73_costs, C73_leak_refuted, C73_search, C73_best, C73_reshard, C73_reshard_refuted, C73_final_config, C74_stacked, C74_stacked_distinct, C74_loaded, C74_config, C74_history, C74_default_refuted, C74_uncovered_refuted, C78_lookup, C78_table_clear, C78_any_directory_order, C78_partial_definitions, C78_agreement, C78_inferred, C78_no_models, C78_any_model_order, C78_crimes, C78_expert_models, C78_expert_counts, C78_glm4_weights, C78_afmoe_weights, C78_expert_names_distinct, C78_model_names_distinct, C78_chosen_names_distinct, C78_shared_weights, C78_crimes_order_refuted, C78_dense_layers_refuted, C78_whisper_refuted, C78_solar_refuted, C79_names, C82_accepted, C82_parameters, C82_base, C82_called, C82_callable, C82_configured, C82_configured_model, C82_repository, C82_annotations_refuted, C82_ignored_refuted, C82_defaults_refuted, C84_get_alone, C84_warm_up, C84_warm_up_succeeds, C84_opened, C84_shared, C84_one_run, C84_more_runs, C84_referenced, C84_named_kept, C84_models_read, C84_whole, C84_later_options_refuted, C84_stale_refuted, C84_worker_trust_refuted, C84_cold_refuted, C85_moved, C85_arguments, C85_values, C85_device_choice, C85_worker, C85_main, C85_stages, C85_run, C85_run_arguments, C85_directory, C85_options, C85_validator_order, C85_validated_again, C85_executors, C85_gpu_rich_keeps_device_refuted, C85_cuda_refuted, C86_stages, C86_run, C86_directory, C86_directory_async, C86_agrees, C86_tokenizer, C86_executed, C86_lost_save_refuted, C86_lost_tokenizer_refuted, C87_valid, C87_rerun, C87_shipped, C87_hub, C87_hub_fails, C87_card, C87_card_made, C87_card_models, C87_lora, C87_order_refuted, C87_other_base_refuted, C87_offline_refuted, C88_round_trip, C88_by_key, C88_stable, C88_order, C88_well_formed, C88_references, C88_given_as_string, C88_same_merge, C88_from_the_record, C88_token_order_refuted, C88_model_called_union_refuted, C88_reference_refuted, C89_owners, C91_left, C91_next, C91_pipeline, C91_order, C92_kept, C92_matrices, C92_config, C92_directory, C92_no_head_refuted, C93_file, C94_names, C94_values, C94_directory, C94_same, C94_finishes, C96_kept, C96_dtype, C97_options, C97_accepted, C97_unknown, C97_switch_value
* **`ClassicalDedekindReals.sig_forall_dec`, `FunctionalExtensionality.functional_extensionality_dep`** (50 theorems): C28_row, C28_negative_epsilon_refuted, C29_value, C29_embed, C29_scale_invariant, C29_order, C29_agree, C29_range, C33_nearswap, C35_rows, C35_succeeds, C35_order, C35_padding_refuted, C35_zero_source_refuted, C35_unknown_token_refuted, C36_rows_match_config, C51_mean, C51_sum, C51_weighted, C51_first_last, C51_single, C51_between, C51_empty, C51_out_of_range, C51_weight_order_refuted, C52_cosine_refuted, C52_far_refuted, C54_translation_partial, C54_rigid_partial, C54_best_rotation, C54_rotation_refuted, C56_mean, C56_order, C56_same, C56_plus, C57_all, C57_selected, C57_bound, C57_same, C57_order, C57_unanimous, C57_shape_refuted, C57_single_refuted, C77_resets_fails, C77_resets_step, C83_rows_succeed, C89_permuted, C89_succeeds, C89_agreed_token, C89_absent_base
* **`ClassicalDedekindReals.sig_forall_dec`, `ClassicalDedekindReals.sig_not_dec`, `FunctionalExtensionality.functional_extensionality_dep`** (84 theorems): C27_norm_preserved, C27_total, C28_expected_density, C28_succeeds, C28_single_column_refuted, C33_stock_line, C33_stock_ratio, C33_stock_orthogonal, C33_stock_coincide, C33_stock_close_models_refuted, C46_product, C46_distribute, C46_error, C46_best, C46_exact, C46_threshold, C46_applied, C46_zero_rank_refuted, C52_average, C52_between, C52_nearest, C52_too_few, C53_too_many, C53_distinct, C53_least_squares, C53_orthogonal, C53_exact, C53_transfer, C53_improves, C53_greedy, C53_zero_point_refuted, C60_value, C60_order, C60_same, C60_eps_refuted, C62_mean, C62_paper, C62_norm, C62_rescaled_refuted, C70_cheap_embed, C70_hidden_last, C70_random, C70_build, C70_unknown_mode_refuted, C70_padding_refuted, C75_fails, C75_least_squares, C75_barycentric, C75_linear_image, C75_affine_image, C76_matrix, C77_resets_last, C77_resets_start, C77_resets_improves, C77_resets_worsen_refuted, C80_kept, C80_succeeds, C80_few_discarded, C80_without_row_refuted, C80_placeholders, C83_bases, C83_succeeds, C83_rows, C83_linear, C83_exact, C83_centred, C83_offset_refuted, C83_command_refuted, C93_names, C93_full, C93_decomposed, C93_distance, C93_exact, C93_untouched, C93_optional_refuted, C95_names, C95_base, C95_aligned, C95_shared, C95_directory, C95_finishes, C96_fields, C96_made, C96_agrees
* **`ClassicalDedekindReals.sig_forall_dec`, `ClassicalDedekindReals.sig_not_dec`, `Classical_Prop.classic`, `FunctionalExtensionality.functional_extensionality_dep`** (121 theorems): C25_keeps_largest, C25_count, C25_extremes, C25_float64_on_cpu_refuted, C25_rounded_count, C26_outliers, C26_small_gamma_zeroes_all_refuted, C30_value, C30_succeeds, C30_equal_models, C30_order, C30_single, C31_value, C31_negative_weight_refuted, C32_endpoints, C32_symmetric, C32_constant_speed, C32_unit, C32_colinear, C32_task, C58_value, C58_threshold, C58_half, C58_sparse, C58_nothing_refuted, C59_endpoints, C59_symmetric, C59_constant_speed, C59_unit, C59_slerp, C59_slerp_refuted, C59_rows, C59_row_wise_refuted, C59_task, C59_base, C60_slerp_refuted, C61_descent, C61_same, C61_two, C61_order_refuted, C61_small_refuted, C61_embed_refuted, C71_selects, C71_power_of_two, C71_two_copies, C71_monotone, C71_error, C71_normalised_error, C71_add_rounded_once, C71_normalised_single_refuted, C72_base_copies, C72_single_exact, C72_single_close, C72_single_error, C72_error, C72_single_refuted, C72_slerp_start, C72_slerp_end, C72_passthrough, C76_applies, C76_pairs, C76_isometry, C76_positions_add, C76_position_zero, C76_relative, C76_best_angles, C76_angles_back, C76_nearest_position, C76_position_back, C76_weighted_back, C76_wraps_refuted, C76_zero_pair_refuted, C77_rope_fails, C77_rope_result, C77_rope_same_space, C79_linear, C79_slerp, C79_nuslerp, C79_karcher, C79_model_stock, C79_arcee_fusion, C79_passthrough, C79_task_arithmetic, C79_dense, C79_nearswap, C79_ram, C79_ramplus, C79_sce, C79_multislerp, C79_accepted, C79_gradient_flag_refuted, C79_base_weight_refuted, C79_end_to_end, C79_end_to_end_linear, C81_omp, C81_omp_linear, C81_interpolation, C81_rigid, C81_rope, C81_succeeds, C81_numbering, C81_mean, C81_zero, C81_subword, C81_scaled, C81_mean_scaled_refuted, C81_fallback_refuted, C81_alone, C81_whole_linear, C81_whole_rigid, C81_runs, C89_end_to_end, C89_linear, C90_passthrough, C90_stacked, C90_slerp, C90_task_arithmetic, C90_self_linear, C90_self_task_arithmetic, C90_self_slerp, C90_tiny_slerp_refuted
