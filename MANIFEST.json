{
 "claims": [
  {
   "property": "C01",
   "status": "proved",
   "theorems": [
    "C01_serial_execution_value"
   ],
   "note": "Full statement for all task trees, attributes, set orders."
  },
  {
   "property": "C02",
   "status": "proved",
   "theorems": [
    "C02_exactly_once_after_dependencies"
   ],
   "note": ""
  },
  {
   "property": "C03",
   "status": "proved",
   "theorems": [
    "C03_eviction_safe_and_prompt"
   ],
   "note": ""
  },
  {
   "property": "C04",
   "status": "partial",
   "theorems": [
    "C04_cached_values_partial",
    "C04_cached_target_never_yielded_refuted"
   ],
   "note": "Refuted for targets that are themselves cached (never yielded); the rest is proved as _partial."
  },
  {
   "property": "C05",
   "status": "partial",
   "theorems": [
    "C05_greedy_partial",
    "C05_labels_do_not_change_what_runs",
    "C05_ready_target_overtaken_refuted"
   ],
   "note": "Refuted for ready targets overtaken by ungrouped non-negative-priority tasks (dummy node has priority 0); the rest is proved as _partial."
  },
  {
   "property": "C06",
   "status": "proved",
   "theorems": [
    "C06_partition",
    "C06_rejects_interleaved_main_thread_tasks",
    "C06_order_independent",
    "C06_workers_stay_off_the_main_thread"
   ],
   "note": "Partition proved for every task graph, set order and positive device count, including which graphs the constructor rejects; run-time half: workers never execute a main-thread-only task."
  },
  {
   "property": "C07",
   "status": "partial",
   "theorems": [
    "C07_agrees_with_serial_partial",
    "C07_complete_run_exists",
    "C07_lost_target_refuted",
    "C07_lost_dependency_refuted",
    "C07_per_gpu_target_refuted"
   ],
   "note": "Agreement with the serial executor proved for every interleaving unless the collector leaves behind queue entries of targets or trailing dependencies, or a per-GPU target exists without parallel work; those three cases are refuted."
  },
  {
   "property": "C08",
   "status": "proved",
   "theorems": [
    "C08_piecewise_linear",
    "C08_control_points",
    "C08_constant",
    "C08_monotone",
    "C08_continuous",
    "C08_empty_gradient_raises"
   ],
   "note": ""
  },
  {
   "property": "C09",
   "status": "partial",
   "theorems": [
    "C09_first_applicable",
    "C09_unset_iff",
    "C09_no_name",
    "C09_empty_list_refuted"
   ],
   "note": "All clauses proved; refuted corner: a conditional list that is empty raises instead of being unset."
  },
  {
   "property": "C10",
   "status": "proved",
   "theorems": [
    "C10_precedence",
    "C10_default",
    "C10_required_raises_iff",
    "C10_other_models_irrelevant"
   ],
   "note": ""
  },
  {
   "property": "C11",
   "status": "partial",
   "theorems": [
    "C11_output_layers",
    "C11_no_gap",
    "C11_unequal_sources_rejected",
    "C11_duplicate_source_refuted"
   ],
   "note": "Proved for all slice configurations; refuted corner: the same model listed twice as a source of one slice keeps one layer per model."
  },
  {
   "property": "C12",
   "status": "partial",
   "theorems": [
    "C12_layer_count_partial",
    "C12_reversed_range_refuted",
    "C12_shipped_partial"
   ],
   "note": "Partial: needs the output configuration's layer-count keys of different modules to be distinct (proved for every shipped architecture: C12_shipped_partial) and no reversed layer range; a reversed range is refuted."
  },
  {
   "property": "C13",
   "status": "partial",
   "theorems": [
    "C13_one_task_per_weight",
    "C13_outer_weights_partial",
    "C13_planning_succeeds_partial",
    "C13_optional_alias_raises",
    "C13_optional_alias_refuted",
    "C13_post_weights_truncated_refuted",
    "C13_tied_name_skipped_refuted",
    "C13_every_module_saved"
   ],
   "note": "One task per layer weight is proved in full; pre/post weights and success of planning are partial, with refutations for optional aliases, truncated post weights and skipped tied names."
  },
  {
   "property": "C14",
   "status": "proved",
   "theorems": [
    "C14_normal_form",
    "C14_idempotent"
   ],
   "note": "normalize_config reaches the normal form and is idempotent."
  },
  {
   "property": "C15",
   "status": "partial",
   "theorems": [
    "C15_round_trip",
    "C15_any_read_order",
    "C15_state_dict_refuted",
    "C15_resaved_name_refuted",
    "C15_nothing_saved_refuted"
   ],
   "note": "Round trip proved for both formats, every limit and every writer interleaving when something is saved and, for torch files, no tensor is called state_dict; any read order when names are distinct. Three refuted corner cases: torch + state_dict, a name saved into two shards read after another tensor, nothing saved."
  },
  {
   "property": "C16",
   "status": "proved",
   "theorems": [
    "C16_shards",
    "C16_shard_size",
    "C16_total_size",
    "C16_total_size_resaved_refuted"
   ],
   "note": "Greedy packing and the size limit for every save sequence; total_size for distinct names as stated. The refuted case (a name saved twice) is outside the statement."
  },
  {
   "property": "C17",
   "status": "proved",
   "theorems": [
    "C17_crash",
    "C17_failed_write",
    "C17_reused_directory_refuted"
   ],
   "note": "Every prefix of the operations under every interleaving, and every failed background writer, from an empty directory as stated. The refuted case is the same crash in a reused directory, outside the statement."
  },
  {
   "property": "C18",
   "status": "partial",
   "theorems": [
    "C18_reused_directory_partial",
    "C18_stale_index_refuted",
    "C18_stale_safetensors_refuted"
   ],
   "note": "True unless a stale index meets a single-file model or a stale safetensors model meets a torch model; both exceptions refuted for all inputs."
  },
  {
   "property": "C19",
   "status": "proved",
   "theorems": [
    "C19_async_is_sync"
   ],
   "note": ""
  },
  {
   "property": "C20",
   "status": "proved",
   "theorems": [
    "C20_history",
    "C20_missing",
    "C20_unindexed_refuted"
   ],
   "note": "Proved for every checkpoint consistent with its index, as stated; the refuted case is an inconsistent checkpoint, outside the statement."
  },
  {
   "property": "C21",
   "status": "partial",
   "theorems": [
    "C21_exact_bytes_partial",
    "C21_reopen",
    "C21_after_failed_open_refuted"
   ],
   "note": "C21_exact_bytes_partial: after any history of requests for existing members every read returns exactly the requested bytes of the requested member, whatever handle was left open; C21_reopen: the handle is reopened only when needed. Partial because a request for a missing member closes the old handle and leaves it registered, so the next request for the old member fails (C21_after_failed_open_refuted)."
  },
  {
   "property": "C22",
   "status": "partial",
   "theorems": [
    "C22_elements_partial",
    "C22_scalar_refuted",
    "C22_bool_refuted",
    "C22_gaps_refuted"
   ],
   "note": "C22_elements_partial: element i of a lazily loaded tensor is the storage element offset + i.stride for every dtype other than bool, every rank >= 1 and every contiguous (dense) stride. Scalars raise TypeError (C22_scalar_refuted), bool raises (C22_bool_refuted), views with gaps read too few bytes (C22_gaps_refuted)."
  },
  {
   "property": "C23",
   "status": "partial",
   "theorems": [
    "C23_print_then_parse",
    "C23_parse_then_print",
    "C23_which_strings_parse",
    "C23_dump_then_validate",
    "C23_distinct_refs_print_alike_refuted"
   ],
   "note": "Exact characterisations for every reference and every string: print-then-parse is the identity iff plain_ref, parse-then-print iff no empty revision, which strings parse, and dump-then-validate. The unconditional statement is false: C23_distinct_refs_print_alike_refuted."
  },
  {
   "property": "C24",
   "status": "partial",
   "theorems": [
    "C24_parse_kmb_exact",
    "C24_documented",
    "C24_only_documented_forms_refuted"
   ],
   "note": "C24_parse_kmb_exact describes the result for every (ASCII) string; C24_documented is the documented part. 'Rejects everything else with ValueError' is false (signs, blanks, underscores; empty string raises IndexError): C24_only_documented_forms_refuted. Non-ASCII digits and letters are not modelled."
  },
  {
   "property": "C25",
   "status": "proved",
   "theorems": [
    "C25_keeps_largest",
    "C25_count",
    "C25_extremes",
    "C25_float64_on_cpu_refuted",
    "C25_rounded_count"
   ],
   "note": "C25_keeps_largest/C25_count/C25_extremes for every tensor, density and stable or unstable sort order. The refuted theorem and C25_rounded_count concern the rounded product density*n (int() of a float product), outside the statement over exact reals."
  },
  {
   "property": "C26",
   "status": "partial",
   "theorems": [
    "C26_outliers",
    "C26_small_gamma_zeroes_all_refuted"
   ],
   "note": "C26_outliers: which entries survive, for every density and gamma whose share of outliers is at least one entry; refuted: when gamma*n rounds down to zero entries the slice [n_bot:-0] is empty and the tensor is zeroed (C26_small_gamma_zeroes_all_refuted)."
  },
  {
   "property": "C27",
   "status": "proved",
   "theorems": [
    "C27_norm_preserved",
    "C27_total"
   ],
   "note": "C27_norm_preserved and C27_total, every method, norm mode and tensor over exact reals."
  },
  {
   "property": "C28",
   "status": "partial",
   "theorems": [
    "C28_row",
    "C28_expected_density",
    "C28_succeeds",
    "C28_single_column_refuted",
    "C28_negative_epsilon_refuted"
   ],
   "note": "C28_row, C28_expected_density, C28_succeeds over exact reals for rows of at least two columns and non-negative epsilon; one column and negative epsilon refuted."
  },
  {
   "property": "C29",
   "status": "proved",
   "theorems": [
    "C29_value",
    "C29_embed",
    "C29_scale_invariant",
    "C29_order",
    "C29_agree",
    "C29_range"
   ],
   "note": "Over exact reals: value formula, different embedding sizes, weight rescaling, order, agreement and range."
  },
  {
   "property": "C30",
   "status": "proved",
   "theorems": [
    "C30_value",
    "C30_succeeds",
    "C30_equal_models",
    "C30_order",
    "C30_single"
   ],
   "note": "Over exact reals, every sparsification and consensus mode: C30_value, C30_succeeds, C30_equal_models, C30_order (random draws fixed per model), C30_single."
  },
  {
   "property": "C31",
   "status": "partial",
   "theorems": [
    "C31_value",
    "C31_negative_weight_refuted"
   ],
   "note": "C31_value: entries are sums of exactly the contributions with the elected sign, never opposite to it unless normalization meets a negative weight; that case is refuted (C31_negative_weight_refuted)."
  },
  {
   "property": "C32",
   "status": "proved",
   "theorems": [
    "C32_endpoints",
    "C32_symmetric",
    "C32_constant_speed",
    "C32_unit",
    "C32_colinear",
    "C32_task"
   ],
   "note": "Over exact reals: endpoints, symmetry, constant angular speed for unit vectors, linear fallback, and the merge step around it."
  },
  {
   "property": "C33",
   "status": "partial",
   "theorems": [
    "C33_nearswap",
    "C33_stock_line",
    "C33_stock_ratio",
    "C33_stock_orthogonal",
    "C33_stock_coincide",
    "C33_stock_close_models_refuted"
   ],
   "note": "NearSwap in full; Model Stock: line for whole-tensor and row-wise modes, ratio N c/(1+(N-1)c), base for orthogonal and common model for coinciding differences. Refuted: coinciding models whose squared distance from the base is below 1e-6 are not returned (C33_stock_close_models_refuted)."
  },
  {
   "property": "C34",
   "status": "partial",
   "theorems": [
    "C34_add_tokens",
    "C34_union",
    "C34_union_order",
    "C34_build",
    "C34_added_token_lost_refuted",
    "C34_base_source_refuted",
    "C34_gap_refuted",
    "C34_strip"
   ],
   "note": "Union vocabulary, added tokens, permutations, stripping proved for all tokenizers (external add_tokens numbering modelled; the base tokenizer's ids assumed contiguous). Refuted: added tokens dropped when the config gives no vocabulary size; source 'base' mutates the base tokenizer so its own permutation is wrong; a hole in the base ids stays."
  },
  {
   "property": "C35",
   "status": "partial",
   "theorems": [
    "C35_rows",
    "C35_succeeds",
    "C35_order",
    "C35_padding_refuted",
    "C35_zero_source_refuted",
    "C35_unknown_token_refuted"
   ],
   "note": "Rows (own vector / configured source / base / mean), success condition and independence of set order proved. Refuted parts of the statement: padding rows hold the mean, not zero; the 'zero' source and a token that no model has make the task fail."
  },
  {
   "property": "C36",
   "status": "proved",
   "theorems": [
    "C36_rows_match_config",
    "C36_same_size"
   ],
   "note": "Both computations agree for every pad value (also negative); least multiple for positive pad; rows actually written match the config value."
  },
  {
   "property": "C37",
   "status": "proved",
   "theorems": [
    "C37_substitution_meaning",
    "C37_layers_never_collide",
    "C37_templates_never_collide",
    "C37_prefix_commutes",
    "C37_other_shifts_rejected",
    "C37_prefix_spelled_out",
    "C37_prefix_injective",
    "C37_shipped_names_distinct",
    "C37_shipped_layers_disjoint",
    "C37_qwen_projector_refuted"
   ],
   "note": "Proved for every template containing the layer index, every prefix and every shipped JSON module; the two Qwen2-VL projector modules are refuted (their layer weights do not mention the layer index)."
  },
  {
   "property": "C38",
   "status": "proved",
   "theorems": [
    "C38_load",
    "C38_rejects_cycles",
    "C38_order"
   ],
   "note": "load_config, make_tasks and the serial executor on the resulting tasks; a merge task is identified by its name. Run-time failures inside a merge are left arbitrary."
  },
  {
   "property": "C39",
   "status": "partial",
   "theorems": [
    "C39_patch_partial",
    "C39_untouched",
    "C39_other_strings_refuted",
    "C39_plus_in_string_refuted",
    "C39_directory_refuted"
   ],
   "note": "Proved for configurations whose other strings cannot be taken for a merge name; refuted in general: a string equal to a merge name (tokenizer_source: union) is rewritten, a string with two '+' makes the command fail with RuntimeError, and a working directory containing '+' or '@' changes the reference."
  },
  {
   "property": "C40",
   "status": "partial",
   "theorems": [
    "C40_weights_partial",
    "C40_finished",
    "C40_config_refuted",
    "C40_tokenizer_refuted"
   ],
   "note": "Over any sequence of attempts dying at any point, a skipped merge has complete weights. Refuted for the other files: config.json may be half written and the tokenizer missing."
  },
  {
   "property": "C41",
   "status": "partial",
   "theorems": [
    "C41_mixtral",
    "C41_mixtral_succeeds",
    "C41_qwen3",
    "C41_qwen3_succeeds",
    "C41_deepseek",
    "C41_deepseek_succeeds_partial",
    "C41_shared_expert_refuted",
    "C41_qwen2",
    "C41_qwen2_succeeds_partial",
    "C41_gates"
   ],
   "note": "Mixtral, Qwen3-MoE, DeepSeek and Qwen2-MoE writers: exact list of written (name, tensor) pairs, no duplicates, and iff-conditions for success, any number of layers/experts. C41_gates: router rows. Partial: the code cannot write a shared expert whose model is neither base nor an expert (C41_shared_expert_refuted); transformers' conversion registry is transcribed, its WeightRenaming entries are not."
  },
  {
   "property": "C42",
   "status": "partial",
   "theorems": [
    "C42_layers_partial",
    "C42_groups_refuted",
    "C42_bounds",
    "C42_values",
    "C42_slerp_partial",
    "C42_slerp_base_refuted",
    "C42_initial",
    "C42_accepted",
    "C42_options",
    "C42_slerp_weights",
    "C42_initial_values",
    "C42_smooth_values",
    "C42_total"
   ],
   "note": "Layer coverage for flat genotypes and for 4-D ones when a granularity is set or there is one group; C42_groups_refuted shows the remaining 4-D case escapes num_layers. Bounds hold for every setting read from the configuration (gradients and filters included), softmax being any function into [0,1]. C42_values ties each value to the genotype entry. C42_slerp_base_refuted: a SLERP genome with an outside base yields three sources per slice. Entries are rationals: NaN/inf genotypes are not modelled. Further theorems: the exact conditions of validation, the global options, SLERP weights, the initial genotype, smooth gradients, and that exactly the vectors of the right length are configured."
  },
  {
   "property": "C43",
   "status": "partial",
   "theorems": [
    "C43_answer",
    "C43_bounds",
    "C43_never_lost",
    "C43_all_answered_partial",
    "C43_invalid_refuted",
    "C43_starvation_refuted"
   ],
   "note": "Answers, bounds and conservation hold in every reachable state; all requests are answered in every fair run without failures. C43_invalid_refuted: an invalid genotype ends the processing loop and later requests are never answered, so the last part of the claim is false of the code. C43_starvation_refuted: newest-first evaluation lets a merged request wait forever."
  },
  {
   "property": "C44",
   "status": "partial",
   "theorems": [
    "C44_global",
    "C44_global_required",
    "C44_explicit_partial",
    "C44_fallback_partial",
    "C44_unset_raises_refuted",
    "C44_default_needs_global_refuted",
    "C44_all_set",
    "C44_explicit_replaced_refuted"
   ],
   "note": "Holds for global parameters (C44_global, C44_global_required) and for per-model values Python counts as true. Refuted otherwise: a model or configuration without a setting raises IndexError/AttributeError instead of falling back, and an explicit 0, False or empty string is replaced by the global value or the default."
  },
  {
   "property": "C45",
   "status": "partial",
   "theorems": [
    "C45_prefix",
    "C45_filled_partial",
    "C45_too_small",
    "C45_stale_index_refuted",
    "C45_plain_name_dropped_refuted",
    "C45_order_refuted"
   ],
   "note": "Names and values of what is saved proved for every prefix and order; the directory loads back except when the base model's copied index file outlives a single-shard result (refuted). Also refuted: a submodel tensor the base holds under its plain name is dropped when a prefix is detected, and ties between prefixes are decided by set iteration order."
  },
  {
   "property": "C46",
   "status": "partial",
   "theorems": [
    "C46_product",
    "C46_distribute",
    "C46_error",
    "C46_best",
    "C46_exact",
    "C46_threshold",
    "C46_recorded_rank",
    "C46_applied",
    "C46_zero_rank_refuted",
    "C46_nothing_extracted_refuted"
   ],
   "note": "Exact real arithmetic; torch.linalg.svd is assumed to satisfy its contract (is_svd). Proved: the product is the truncation of the (possibly transposed) task vector, its error, optimality among all factors of that inner dimension, exactness at full rank, the threshold rule, and that the recorded rank and alpha are those of the stored factor. _refuted: a threshold can leave rank 0, recorded as r=0, and an extraction without any decomposed module raises ValueError. PEFT's pattern lookup is modelled by exact name."
  },
  {
   "property": "C47",
   "status": "partial",
   "theorems": [
    "C47_size",
    "C47_exact",
    "C47_byte",
    "C47_prefix",
    "C47_approximated",
    "C47_batching",
    "C47_zeroed",
    "C47_succeeds",
    "C47_normalized",
    "C47_token",
    "C47_missing",
    "C47_options_partial",
    "C47_options_swapped_refuted",
    "C47_stb_refuted",
    "C47_magikarp",
    "C47_saved",
    "C47_special_tokens_refuted",
    "C47_beyond_donor_refuted",
    "C47_minus_sign_refuted"
   ],
   "note": "Proved for every pair of vocabularies and every approximation: exact, byte and prefix matches, the approximated rows, the zero rows, the size, success, what --magikarp keeps and what is written. _partial/_refuted: the options lm_head and embed are swapped between the two matrices; the sparse token basis always raises TypeError; all additional special tokens collapse into one normalised token; a donor token beyond the donor's rows is zeroed although known; <0x-1> raises ValueError. int(s, 16) is modelled for ASCII digits."
  },
  {
   "property": "C48",
   "status": "proved",
   "theorems": [
    "C48_second_finalize_raises"
   ],
   "note": ""
  },
  {
   "property": "C49",
   "status": "partial",
   "theorems": [
    "C49_planned",
    "C49_missing_raises",
    "C49_loads_partial",
    "C49_union_refuted",
    "C49_base_only_refuted"
   ],
   "note": "Planned set proved for every option combination; loads succeed except with --tensor-union over models that do not all hold a tensor (refuted: KeyError at execution). Tensors only the base model has are never planned (refuted)."
  },
  {
   "property": "C50",
   "status": "partial",
   "theorems": [
    "C50_plan",
    "C50_modules_to_save",
    "C50_full",
    "C50_lora",
    "C50_excluded",
    "C50_save_module_refuted",
    "C50_order_refuted"
   ],
   "note": "Regexes are arbitrary predicates. _refuted: with --save-module the list is a tuple and the first embedding not covered raises AttributeError; a module decomposed before an unsupported one with the same last component is also listed in modules_to_save."
  },
  {
   "property": "C51",
   "status": "partial",
   "theorems": [
    "C51_mean",
    "C51_sum",
    "C51_weighted",
    "C51_first_last",
    "C51_single",
    "C51_between",
    "C51_empty",
    "C51_out_of_range",
    "C51_weight_order_refuted"
   ],
   "note": "All four methods, exact reals. _refuted: for the embeddings the first subword weighs most, for the head the last; the comment asks for the opposite."
  },
  {
   "property": "C52",
   "status": "partial",
   "theorems": [
    "C52_average",
    "C52_between",
    "C52_nearest",
    "C52_too_few",
    "C52_cosine_refuted",
    "C52_far_refuted"
   ],
   "note": "Euclidean metric proved, given that torch.topk returns k smallest; weights add to one when a chosen token is within 10^6. _refuted: cosine similarities can be negative, and the clamp of their sum at 1e-6 gives weights of -500000. The schemes barycentric and least_squares are in C75."
  },
  {
   "property": "C53",
   "status": "partial",
   "theorems": [
    "C53_too_many",
    "C53_distinct",
    "C53_least_squares",
    "C53_orthogonal",
    "C53_exact",
    "C53_transfer",
    "C53_improves",
    "C53_greedy",
    "C53_zero_point_refuted"
   ],
   "note": "Proved for independent chosen points, given the contracts of max, qr and solve_triangular (instances proved to exist). _refuted: the first diagonal entry is not clamped, so a zero point gives a singular system. Matching pursuit with resets and rope is in C77."
  },
  {
   "property": "C54",
   "status": "partial",
   "theorems": [
    "C54_translation_partial",
    "C54_rigid_partial",
    "C54_best_rotation",
    "C54_rotation_refuted"
   ],
   "note": "_translation_partial, _rigid_partial: a rotated, shifted copy is carried over exactly, if the points span the space and their principal variances differ (translations: whatever the variances). _best_rotation: the rotation used is the best one from b's projected points to a's. _refuted: it is put on a's target, the wrong way round; with equal variances a quarter turn sends a shared token to the opposite of its image. Missing: copies in a space of another dimension, points that do not span."
  },
  {
   "property": "C55",
   "status": "partial",
   "theorems": [
    "C55_base_separate",
    "C55_no_base",
    "C55_base_first",
    "C55_base_first_refuted",
    "C55_order_refuted"
   ],
   "note": "Proved for every iteration order of the set of models: base separated, lists aligned, required base. _refuted: the base model is not first when the function takes neither base_tensor nor base_model, and the lists do not follow the order of the input models, contrary to the documentation."
  },
  {
   "property": "C56",
   "status": "proved",
   "theorems": [
    "C56_mean",
    "C56_order",
    "C56_same",
    "C56_plus"
   ],
   "note": "Over exact reals; per-position mean, order independence, copies of one model, and the RAM+ factor with its bounds."
  },
  {
   "property": "C57",
   "status": "partial",
   "theorems": [
    "C57_all",
    "C57_selected",
    "C57_bound",
    "C57_same",
    "C57_order",
    "C57_unanimous",
    "C57_shape_refuted",
    "C57_single_refuted"
   ],
   "note": "Over exact reals, for every topk that returns positions of largest value. _refuted: when no position is selected the result is the base repeated once per model (wrong shape); always so for a single model with select_topk below 1. C57_unanimous: where the models agree their common change is dropped below 1."
  },
  {
   "property": "C58",
   "status": "partial",
   "theorems": [
    "C58_value",
    "C58_threshold",
    "C58_half",
    "C58_sparse",
    "C58_nothing_refuted"
   ],
   "note": "Over exact reals, for every sort order of equal values. C58_sparse: models agreeing on more than three quarters of the positions fuse to the whole other model. _refuted: evenly spread scores lie below the threshold median + 1.5 IQR, so nothing is taken from a model that differs."
  },
  {
   "property": "C59",
   "status": "partial",
   "theorems": [
    "C59_endpoints",
    "C59_symmetric",
    "C59_constant_speed",
    "C59_unit",
    "C59_slerp",
    "C59_slerp_refuted",
    "C59_rows",
    "C59_row_wise_refuted",
    "C59_task",
    "C59_base"
   ],
   "note": "Over exact reals. _refuted: nearly colinear vectors where slerp falls back to linear interpolation and nuslerp does not; nuslerp_row_wise works on columns, contrary to the documentation."
  },
  {
   "property": "C60",
   "status": "partial",
   "theorems": [
    "C60_value",
    "C60_order",
    "C60_same",
    "C60_slerp_refuted",
    "C60_eps_refuted"
   ],
   "note": "Over exact reals: closed form of the result, order independence, copies of one model (times cos eps). _refuted: the tangent vectors always cancel, so it is the normalised weighted mean, not a spherical barycentre (two orthogonal models with weights 1/3, 2/3 differ from SLERP); eps = 0 divides zero by zero."
  },
  {
   "property": "C61",
   "status": "partial",
   "theorems": [
    "C61_descent",
    "C61_same",
    "C61_two",
    "C61_order_refuted",
    "C61_small_refuted",
    "C61_embed_refuted"
   ],
   "note": "Over exact reals: norm, descent, copies, two models. _refuted: opposite tensors give whichever comes first; tensors no longer than tol count as zero, so copies of one give zero; embeddings of different sizes fail because the resized list is thrown away."
  },
  {
   "property": "C62",
   "status": "partial",
   "theorems": [
    "C62_mean",
    "C62_paper",
    "C62_norm",
    "C62_rescaled_refuted"
   ],
   "note": "Exact expectations. Proved without rescaling and for rescaling by 1/density; _refuted: the l1 rescaling that dare methods use is biased and not proportional ([1;3] at 1/2 averages to [5/4;7/4]). C62_norm gives the expected norm."
  },
  {
   "property": "C63",
   "status": "partial",
   "theorems": [
    "C63_run",
    "C63_directory",
    "C63_directory_async",
    "C63_end_to_end",
    "C63_same_name_refuted"
   ],
   "note": "Composes planner, executor, loader and writer. The merge method, the tokenizer, the embedding permutation, checkpoint conversion and dtype casts are arbitrary functions that may raise. Hypotheses: distinct output names (proved for a module in C13), distinct printed source names, consistent input indices (C20), empty output directory (C18). _refuted: two references that print alike (override_architecture is not printed) collapse to one source and the run still finishes."
  },
  {
   "property": "C64",
   "status": "partial",
   "theorems": [
    "C64_memory_agrees_partial",
    "C64_optional_refuted"
   ],
   "note": "_refuted: with an output dtype, an optional weight without value (model_stock) is skipped on disk but raises AttributeError in memory. The partial theorem excludes exactly that case."
  },
  {
   "property": "C65",
   "status": "partial",
   "theorems": [
    "C65_layer_number",
    "C65_covers",
    "C65_flags",
    "C65_empty",
    "C65_unknown_model_refuted",
    "C65_order",
    "C65_stripped_refuted",
    "C65_ignored_refuted",
    "C65_tied_unknown_refuted"
   ],
   "note": "Hypotheses: the tensor names contain no template syntax, no weight outside layers starts with the name of a stack when there are several stacks, embeddings and tied patterns are known; regular-expression search and conversion availability are arbitrary predicates. _refuted: prefix stripping outside these hypotheses mangles names depending on set order; names excluded from saving are honoured in layers only; when transformers reports no embeddings or no tied weights inference raises TypeError although the warning announces less."
  },
  {
   "property": "C66",
   "status": "partial",
   "theorems": [
    "C66_sorting_total",
    "C66_numeric",
    "C66_experts_in_order",
    "C66_promise_kept",
    "C66_renamed",
    "C66_targets",
    "C66_chained",
    "C66_single_expert_refuted",
    "C66_stops_early_refuted",
    "C66_two_ways_refuted"
   ],
   "note": "The registry of transforms (transformers) is arbitrary; a combining transform is assumed to make its targets from a complete group (honours, proved for a Mixtral-like transform in the example) and the target not to be made in two ways (unambiguous, proved for the example). _refuted: a block with a single expert is judged incomplete though it converts; an incomplete combination ends the search although a later transform makes the weight; with two ways the names may promise what loading does not deliver."
  },
  {
   "property": "C67",
   "status": "proved",
   "theorems": [
    "C67_auto",
    "C67_auto_order",
    "C67_named",
    "C67_files",
    "C67_raises",
    "C67_untouched",
    "C67_long_template_refuted",
    "C67_bad_template_refuted",
    "C67_hub_refuted",
    "C67_tie_refuted",
    "C67_blank_refuted",
    "C67_trust_refuted"
   ],
   "note": "transformers (loading, template access, saving a tokenizer) is represented by arbitrary functions that may raise; the template is within the file-name limits in C67_named. The _refuted theorems are findings beyond the statement: a text template longer than a file name may be (255) raises OSError; a bad template fails the run after the weights are written if a tokenizer is built but is silently ignored when one is copied; merges.txt and chat_template.jinja are never downloaded from the hub, hence never copied; a tie depends on the order of the models; a blank template can win; trust_remote_code is not used when voting."
  },
  {
   "property": "C68",
   "status": "proved",
   "theorems": [
    "C68_first_use",
    "C68_own_merge",
    "C68_returns",
    "C68_failure_kept_refuted",
    "C68_dtype_refuted",
    "C68_close_names",
    "C68_collision_refuted"
   ],
   "note": "Merging itself (transformers, PEFT) is an arbitrary function of reference and dtype. C68_own_merge assumes that no attempt failed and that calls sharing a directory want the same files. The _refuted theorems show that both hypotheses are needed: a failed attempt is later returned as a finished merge; dtype and architecture override are not part of the key; two models with the same checksum and last component share a directory (concrete CRC-32 collision)."
  },
  {
   "property": "C69",
   "status": "proved",
   "theorems": [
    "C69_legacy",
    "C69_legacy_accepts",
    "C69_shuffled",
    "C69_full_random",
    "C69_naive_count_refuted",
    "C69_deep_layers_refuted",
    "C69_layershuffle_refuted"
   ],
   "note": "Numbers are exact rationals. The _refuted theorems are findings beyond the statement: --naive-count never validates (a parameter cannot be a string); --full-random draws only among the first layers (the share is used as the range); mergekit-layershuffle always raises AttributeError because ModelArchitecture has no method num_layers."
  },
  {
   "property": "C70",
   "status": "proved",
   "theorems": [
    "C70_accepted",
    "C70_supported",
    "C70_selected",
    "C70_cheap_embed",
    "C70_hidden_last",
    "C70_random",
    "C70_build",
    "C70_single_expert_refuted",
    "C70_uniform_prompts_refuted",
    "C70_random_same_refuted",
    "C70_unknown_mode_refuted",
    "C70_padding_refuted"
   ],
   "note": "Exact reals; rows of a batch are processed independently and states do not depend on masked positions to their left (causal), every prompt has a token. The _refuted theorems are findings beyond the statement: a single expert is refused in every mode but random; uniform_random needs prompts it does not use; random accepts identical experts without the flag; an unknown mode raises TypeError; hidden_avg averages over padding, so the gate can point the opposite way of every token state."
  },
  {
   "property": "C71",
   "status": "proved",
   "theorems": [
    "C71_selects",
    "C71_power_of_two",
    "C71_two_copies",
    "C71_monotone",
    "C71_error",
    "C71_normalised_error",
    "C71_add_rounded_once",
    "C71_formats_round_once",
    "C71_normalised_single_refuted"
   ],
   "note": "Numbers are reals of a binary format with gradual underflow (Flocq); overflow, NaN and signed zero are not modelled. The _refuted theorem is a finding beyond the statement: a single bfloat16 model merged with weight 0.3 and normalisation comes back changed."
  },
  {
   "property": "C72",
   "status": "proved",
   "theorems": [
    "C72_base_copies",
    "C72_single_exact",
    "C72_single_close",
    "C72_single_error",
    "C72_error",
    "C72_single_refuted",
    "C72_slerp_start",
    "C72_slerp_end",
    "C72_passthrough"
   ],
   "note": "As C71; the library functions acos and sin are arbitrary with sin 0 = 0 and a value of acos in the scalar format whose sine is not zero. The _refuted theorem is a finding beyond the statement: in every format there are a base and a model that task arithmetic with weight one does not give back."
  },
  {
   "property": "C73",
   "status": "proved",
   "theorems": [
    "C73_naughty",
    "C73_score",
    "C73_score_order",
    "C73_asked",
    "C73_pool_results",
    "C73_pool_disk",
    "C73_pool_finishes",
    "C73_serial",
    "C73_costs",
    "C73_leak_refuted",
    "C73_search",
    "C73_best",
    "C73_reshard",
    "C73_reshard_refuted",
    "C73_final_config"
   ],
   "note": "Merges, the harness (lm-eval) and the optimiser are parameters; directory names are fresh as mkdtemp guarantees; Ray retries are not modelled. The _refuted theorems are findings beyond the statement: a merge that raises leaves its directory behind (C73_leak_refuted) and an interrupted conversion is used as the model ever after (C73_reshard_refuted). C73_serial: on an invalid genotype the serial strategy raises where the pool returns no score; C73_costs: the driver then raises in both."
  },
  {
   "property": "C74",
   "status": "proved",
   "theorems": [
    "C74_stacked",
    "C74_stacked_distinct",
    "C74_loaded",
    "C74_config",
    "C74_history",
    "C74_default_refuted",
    "C74_uncovered_refuted"
   ],
   "note": "Shapes and the vLLM engine are not modelled; a stacked parameter is the list of its parts. The _refuted theorems are findings beyond the statement: a configuration key that returns to its default is not noticed, and a parameter no plan gives a value to keeps uninitialised memory."
  },
  {
   "property": "C75",
   "status": "proved",
   "theorems": [
    "C75_fails",
    "C75_least_squares",
    "C75_barycentric",
    "C75_linear_image",
    "C75_affine_image"
   ],
   "note": "Given that torch.topk returns k smallest and torch.linalg.lstsq a least-squares solution (an instance is constructed and proved). Exact real arithmetic."
  },
  {
   "property": "C76",
   "status": "proved",
   "theorems": [
    "C76_applies",
    "C76_pairs",
    "C76_matrix",
    "C76_isometry",
    "C76_positions_add",
    "C76_position_zero",
    "C76_relative",
    "C76_best_angles",
    "C76_angles_back",
    "C76_nearest_position",
    "C76_position_back",
    "C76_weighted_back",
    "C76_wraps_refuted",
    "C76_zero_pair_refuted"
   ],
   "note": "Exact real arithmetic; the sign of zero in atan2 is left out. _refuted theorems are findings beyond the statement: beyond pi positions wrap around (5 comes back as 5 - 2 pi), and a zero pair counts as angle zero, so a row with a zero head comes back at half its position; the weighted estimate, which is defined but never used, has not this defect."
  },
  {
   "property": "C77",
   "status": "proved",
   "theorems": [
    "C77_rope_fails",
    "C77_rope_result",
    "C77_rope_same_space",
    "C77_resets_fails",
    "C77_resets_last",
    "C77_resets_step",
    "C77_resets_start",
    "C77_resets_improves",
    "C77_resets_worsen_refuted"
   ],
   "note": "Exact real arithmetic; contracts of torch.max and torch.linalg.lstsq with proved instances. _refuted is a finding beyond the statement: inner products are compared with their sign and without dividing by lengths, so a reset can make the approximation worse (squared error 9/50 to 121/100). k = 0 with a positive number of iterations never ends in the code (the permutation of nothing adds nothing); not modelled."
  },
  {
   "property": "C78",
   "status": "proved",
   "theorems": [
    "C78_lookup",
    "C78_table_clear",
    "C78_any_directory_order",
    "C78_partial_definitions",
    "C78_agreement",
    "C78_inferred",
    "C78_no_models",
    "C78_any_model_order",
    "C78_crimes",
    "C78_expert_models",
    "C78_expert_counts",
    "C78_glm4_weights",
    "C78_afmoe_weights",
    "C78_expert_names_distinct",
    "C78_model_names_distinct",
    "C78_chosen_names_distinct",
    "C78_shared_weights",
    "C78_crimes_order_refuted",
    "C78_dense_layers_refuted",
    "C78_whisper_refuted",
    "C78_solar_refuted"
   ],
   "note": "Definitions are compared structurally. _refuted theorems are findings beyond the statement: with allow_crimes the definition used depends on the iteration order of a set; GLM-4 models with different first_k_dense_replace count as the same architecture although their weights differ; the Whisper definition joins the decoder prefix without a dot; Solar's lm_head is tied to a weight that does not exist."
  },
  {
   "property": "C79",
   "status": "proved",
   "theorems": [
    "C79_names",
    "C79_linear",
    "C79_slerp",
    "C79_nuslerp",
    "C79_karcher",
    "C79_model_stock",
    "C79_arcee_fusion",
    "C79_passthrough",
    "C79_task_arithmetic",
    "C79_dense",
    "C79_nearswap",
    "C79_ram",
    "C79_ramplus",
    "C79_sce",
    "C79_multislerp",
    "C79_accepted",
    "C79_gradient_flag_refuted",
    "C79_base_weight_refuted",
    "C79_end_to_end",
    "C79_end_to_end_linear"
   ],
   "note": "Exact real arithmetic. What torch.topk, torch.randperm and the iteration order of a set give is a parameter. _refuted theorems are findings beyond the statement: a yes-or-no parameter given as a gradient over the layers is read and then refused when the task is built; a base model may lack the required weight, and a linear merge that contains it then fails when it runs."
  },
  {
   "property": "C80",
   "status": "proved",
   "theorems": [
    "C80_kept",
    "C80_succeeds",
    "C80_few_discarded",
    "C80_without_row_refuted",
    "C80_placeholders"
   ],
   "note": "Exact reals. _refuted: a token whose id has no row at all counts as well trained."
  },
  {
   "property": "C81",
   "status": "proved",
   "theorems": [
    "C81_omp",
    "C81_omp_linear",
    "C81_interpolation",
    "C81_rigid",
    "C81_rope",
    "C81_succeeds",
    "C81_numbering",
    "C81_mean",
    "C81_zero",
    "C81_subword",
    "C81_scaled",
    "C81_mean_scaled_refuted",
    "C81_fallback_refuted",
    "C81_alone",
    "C81_whole_linear",
    "C81_whole_rigid",
    "C81_runs"
   ],
   "note": "Exact reals; torch routines (topk, qr, solve, svd, pca) by what they compute. _refuted: the mean cannot be scaled when a batch has several tokens; john_hewitt fails instead of falling back when the covariance is not positive definite."
  },
  {
   "property": "C82",
   "status": "proved",
   "theorems": [
    "C82_accepted",
    "C82_parameters",
    "C82_base",
    "C82_called",
    "C82_callable",
    "C82_configured",
    "C82_configured_model",
    "C82_repository",
    "C82_annotations_refuted",
    "C82_ignored_refuted",
    "C82_defaults_refuted"
   ],
   "note": "_refuted theorems are findings beyond the statement: an argument without annotation is accepted although no call can succeed; arguments annotated List[bool] or Optional[float] silently keep their default; the default of a method-wide parameter is not checked; torch.Tensor | None is refused as annotation of the base tensor."
  },
  {
   "property": "C83",
   "status": "proved",
   "theorems": [
    "C83_bases",
    "C83_succeeds",
    "C83_rows",
    "C83_rows_succeed",
    "C83_linear",
    "C83_exact",
    "C83_centred",
    "C83_offset_refuted",
    "C83_command_refuted"
   ],
   "note": "Exact reals; torch routines (svd, lstsq, qr, solve, the greedy choice) by what they compute. _refuted theorems are findings beyond the statement: coefficients are fitted to rows less their average but applied to the rows themselves, so the basis may be zero; the command passes its options in the place of k, so the method always fails."
  },
  {
   "property": "C84",
   "status": "proved",
   "theorems": [
    "C84_get_alone",
    "C84_warm_up",
    "C84_warm_up_succeeds",
    "C84_opened",
    "C84_shared",
    "C84_one_run",
    "C84_more_runs",
    "C84_referenced",
    "C84_named_kept",
    "C84_models_read",
    "C84_whole",
    "C84_later_options_refuted",
    "C84_stale_refuted",
    "C84_worker_trust_refuted",
    "C84_cold_refuted"
   ],
   "note": "merged() and lazy_loader() are parameters. _refuted theorems are findings beyond the statement: a later run in the same process with other options, or after the model changed on disk, keeps the loaders of the earlier one; worker threads do not see trust_remote_code; a model opened by a worker thread is opened under the defaults."
  },
  {
   "property": "C85",
   "status": "proved",
   "theorems": [
    "C85_moved",
    "C85_arguments",
    "C85_values",
    "C85_device_choice",
    "C85_worker",
    "C85_main",
    "C85_stages",
    "C85_run",
    "C85_run_arguments",
    "C85_directory",
    "C85_options",
    "C85_validator_order",
    "C85_validated_again",
    "C85_executors",
    "C85_gpu_rich_keeps_device_refuted",
    "C85_cuda_refuted"
   ],
   "note": "That a task computes the same wherever its arguments are together is a hypothesis (portable, portable_env). Streams and non_blocking copies are not modelled. _refuted theorems are findings beyond the statement: --gpu-rich overrides a device that was given, for computing but not for reading; --cuda has no effect if another device is given."
  },
  {
   "property": "C86",
   "status": "proved",
   "theorems": [
    "C86_stages",
    "C86_run",
    "C86_directory",
    "C86_directory_async",
    "C86_agrees",
    "C86_tokenizer",
    "C86_executed",
    "C86_lost_save_refuted",
    "C86_lost_tokenizer_refuted"
   ],
   "note": "The condition on the queue is part of the statement. The _refuted theorems show what happens without it: if the entry of a saved tensor is left behind but that of its merge is not, the run always fails; if that of the tokenizer is left behind, the run may finish but never reports a tokenizer. Calls on the writer are atomic (its lock)."
  },
  {
   "property": "C87",
   "status": "proved",
   "theorems": [
    "C87_valid",
    "C87_rerun",
    "C87_shipped",
    "C87_hub",
    "C87_hub_fails",
    "C87_card",
    "C87_card_made",
    "C87_card_models",
    "C87_lora",
    "C87_order_refuted",
    "C87_other_base_refuted",
    "C87_offline_refuted"
   ],
   "note": "The conditions are part of the statement; the _refuted theorems show what happens without them: without a base model the output configuration depends on the order of a set, and with modules of different models it can disagree with the tensors saved. C87_offline_refuted: a relative local path with the hub unreachable leaves a merge without card and tokenizer. The YAML text of the configuration is not modelled."
  },
  {
   "property": "C88",
   "status": "proved",
   "theorems": [
    "C88_round_trip",
    "C88_by_key",
    "C88_stable",
    "C88_order",
    "C88_well_formed",
    "C88_references",
    "C88_given_as_string",
    "C88_same_merge",
    "C88_from_the_record",
    "C88_token_order_refuted",
    "C88_model_called_union_refuted",
    "C88_reference_refuted"
   ],
   "note": "The conditions are part of the statement; the _refuted theorems show what happens without them. C88_token_order_refuted: the order of tokenizer.tokens is lost, so tokens added by a configuration that was written and read back (mergekit-multi, a recorded configuration) get other ids. PyYAML's text is trusted to give values back with sorted keys; pydantic's coercion of strings to numbers is outside the model."
  },
  {
   "property": "C89",
   "status": "proved",
   "theorems": [
    "C89_permuted",
    "C89_succeeds",
    "C89_agreed_token",
    "C89_owners",
    "C89_end_to_end",
    "C89_linear",
    "C89_absent_base"
   ],
   "note": "Composes C35 and C36 (permutation), C13 (planning), C63 (runs) and C79 (methods). Weights after the layers are covered when the last slice has no more sources than the first (C13). C89_absent_base: a configuration by slices may name a base model that is not a source of the slice; the merge of its embeddings then always fails."
  },
  {
   "property": "C90",
   "status": "proved",
   "theorems": [
    "C90_passthrough",
    "C90_stacked",
    "C90_slerp",
    "C90_task_arithmetic",
    "C90_self_linear",
    "C90_self_task_arithmetic",
    "C90_self_slerp",
    "C90_tiny_slerp_refuted"
   ],
   "note": "Composes C79_end_to_end with the per-method theorems. C90_tiny_slerp_refuted is the exact statement of the part of the property about tensors of norm at most 1e-8. Exact real arithmetic (floats: C72)."
  },
  {
   "property": "C91",
   "status": "proved",
   "theorems": [
    "C91_left",
    "C91_next",
    "C91_pipeline",
    "C91_order"
   ],
   "note": "Induction over the stages, on top of C63 (runs) and C15 (directories). That multimerge runs a merge after those it reads is C38; skipping existing outputs is C40. Configurations, architectures and tokenizers of the stages are fixed in advance."
  },
  {
   "property": "C92",
   "status": "proved",
   "theorems": [
    "C92_kept",
    "C92_matrices",
    "C92_config",
    "C92_directory",
    "C92_no_head_refuted"
   ],
   "note": "On top of C47 (the matrices), C20 (the loader) and C15 (the writer). The check for a missing output embedding in the loop of main cannot be reached (C92_no_head_refuted). Which tokens are well trained is C80 and the rows of new tokens C81."
  },
  {
   "property": "C93",
   "status": "proved",
   "theorems": [
    "C93_names",
    "C93_full",
    "C93_decomposed",
    "C93_distance",
    "C93_exact",
    "C93_untouched",
    "C93_file",
    "C93_optional_refuted"
   ],
   "note": "On top of C46 (factors), C50 (plan) and the writer. What loading an adapter does is specified in Whole.v (with_adapter); biases of decomposed modules are written but no claim is made about their use. C93_optional_refuted: optional weights or biases that are missing end the run in a TypeError."
  },
  {
   "property": "C94",
   "status": "proved",
   "theorems": [
    "C94_names",
    "C94_values",
    "C94_directory",
    "C94_same",
    "C94_finishes"
   ],
   "note": "On top of C44 (parameters), C49 (plan), C20 (loader) and C15 (writer). The merge method and the cast are arbitrary functions that may raise."
  },
  {
   "property": "C95",
   "status": "proved",
   "theorems": [
    "C95_names",
    "C95_base",
    "C95_aligned",
    "C95_shared",
    "C95_directory",
    "C95_finishes"
   ],
   "note": "On top of C41 (the four writers), C70 (gates and architecture), C20 (loader) and C15 (writer). The dense architecture of the base model is llama or mistral, as C70 enforces for DeepSeek MoE; the number of layers in the configuration is that of the language model."
  },
  {
   "property": "C96",
   "status": "proved",
   "theorems": [
    "C96_fields",
    "C96_kept",
    "C96_dtype",
    "C96_made",
    "C96_agrees"
   ],
   "note": "Assumed of transformers: a configuration class keeps its keyword arguments and has defaults for the others; to_dict gives the fields and the class's own model type."
  },
  {
   "property": "C97",
   "status": "proved",
   "theorems": [
    "C97_options",
    "C97_accepted",
    "C97_unknown",
    "C97_switch_value"
   ],
   "note": "click's option parser is transcribed, without --help; of several errors the model may report another than click. Which sizes can be read is C24."
  }
 ]
}