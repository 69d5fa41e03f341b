# Formal model of alignedTextGrid

Source: `/repo/src/aligned_textgrid` (Python), read as text, never run.
Model and proofs: `/verif/rocq/theories` (Rocq/Coq 8.16.1).

## Method

Python objects live in a heap (`Base.v`): five tables (classes, intervals and
points, tiers, groups, grids), identified by position, so object identity is
equality of identifiers and is separate from value equality (equal praatio
tuple).  Every modelled method is a total function in a state-and-exception
monad `M A = heap -> Ok a heap | Raise e heap`; an exception keeps the heap as it
was when raised, so partial mutation before an exception is visible.
Recursion that Python bounds only by its stack carries fuel and answers
`RecursionError` (or `Diverge` for `while` loops) when it runs out.

What the code takes from outside is the type class `Env`:

* `argsort`: any function returning a sorting permutation (numpy's default
  sort kind is unstable);
* `fadd`: any monotone addition (floating point addition in shifts);
* `atol`: numpy's absolute tolerance in time ticks;
* `match_name`: difflib's first matching block (arbitrary function).

All theorems are stated for every `Env`.  Times are integers (`Z`), i.e. any
fixed-point resolution; comparisons, min, max and differences are exact.

| file | models |
|---|---|
| `Base.v` | heap, exceptions, attribute lookup, `issubclass` |
| `ClassOps.v` | class hierarchy, `custom_classes.py`, Word/Phone wiring |
| `SeqOps.v` | `sequence_list.py`, `mixins/mixins.py`, parent/child part of `sequences.py`, points |
| `TierOps.v` | tiers, TierGroup/PointsGroup, `mixins/within.py`, `mixins/tiermixins.py`, cleanup, fusion |
| `GridOps.v` | `aligned_textgrid.py`, group `append`, `to_df` rows, PoLaR label functions |
| `AccessOps.v` | `__getitem__` of tiers, groups and grids, `__iter__`/`__next__` of intervals |
| `NameOps.v` | groups as attributes of grids: `_set_group_names` and the methods that do (not) call it |
| `PolarOps.v` | `polar/polar_classes.py`, `polar/polar_grid.py`: pairing of points, ranges, labels |
| `History.v` | any sequence of the parent/child operations, as one inductive type (for C15) |
| `Demo*.v` | a concrete `Env` and concrete states for the examples; refuting witnesses |
| `Spec.v`, `*Spec.v` | specification vocabulary, independent of the model's helpers |
| `*Proofs.v`, `*Final.v`, `ReadClasses.v` | lemmas |
| `Properties_*.v` | the property theorems only, each with a concrete case and `Print Assumptions` |

The specification vocabulary is one small file per subject: `Spec.v` (lists, links,
class chains, times), `TierSpec.v` (C18, C33), `GroupSpec.v` (C23-C29: what a group
in good order is), `FuseSpec.v` (C31), `OwnSpec.v` (C38), `LookupSpec.v` (C43, C44),
`PolarSpec.v` (C45, C46), `EditSpec.v` (C47, C48), `RelateSpec.v` (C49), `GrowSpec.v`
(C50), `PopSpec.v` (C51), `WeaveSpec.v` (C52), `ReadSpec.v` (C53),
`TripSpec.v` (C54), `SpliceSpec.v` (C55), `AddSpec.v` (C56),
`AccessSpec.v` (C57, C58), `NameSpec.v` (C59), `AppendSpec.v` (C60, C61),
`ExtendSpec.v` (C62), `CleanSpec.v` (C63), `TidySpec.v` (C64), `ReadSpec.v` and `TripSpec.v` (C65), `SnapSpec.v`, `ChildSpec.v`, `MendSpec.v`, `RaggedSpec.v`, `PlusSpec.v`, `PluckSpec.v`, `ReviseSpec.v`: `grid_view`, `edit_view`, `working`, `TagSpec.v`: `tiers_named`, `well_tagged`, `MergeSpec.v`: `fuse_view`, `can_fuse`, `LevelSpec.v`: `levelled`, `level_rest`, `UnevenSpec.v`: `nesting`, `widens`, `widened_group`, `wrote_row_wide`, `WidenSpec.v`: `fill_ready`, `mended`, `remade_group`, `wrote_row_remade`, `MixSpec.v`: `points_at`, `BesideSpec.v`: `first_point`, `last_first_point`, `row_value`, `wrote_beside`, `ShowSpec.v`: `lacks`, `class_names`, `label_above`, `labels_below`, `name_above`, `name_below`, `plainly_labelled`, `place`, `SliceSpec.v`: `means`, `cut_out`, `LeftSpec.v`: `all_of`, `only_noted`, `HomeSpec.v`: `home_after`.

## Plan per property

| id | modelled | how proved |
|---|---|---|
| C01 | `sl_init`, `sl_sort` | permutation + sortedness from the `argsort` contract |
| C02 | `sl_add` | C01 + filter lemma + cast loop frame |
| C03 | `sl_append`, `searchsorted` | binary search invariant; refutation for a zero start |
| C04 | `sl_drop`, `subset_remove` | list lemma on the first match |
| C05 | `sl_concat`, `seq_shift` | loop over distinct entries |
| C06 | `n_overlaps` | counting argument on the pair matrix |
| C07 | `set_link` | unfolding the mutual recursion to its depth bound |
| C08 | `precedence` | loop invariant over the list |
| C09 | `precedence` | frame relation `links_only` |
| C10 | `set_hier` | unfolding the mutual recursion |
| C11 | `custom_classes` | induction over the wiring loop |
| C12 | `order_by_names` | index lemma; refuting 3-cycle |
| C13 | `clone_class` | induction on the chain |
| C14 | `get_class_hierarchy` | induction up, then down the chain |
| C15 | all parent/child operations | invariant preserved by each operation, induction over histories |
| C16, C17 | `remove_*`, `subset_setter` | from the lemmas of C15 |
| C18 | `itier_init` | C01 + C08 |
| C19 | `interval_at_half` | induction over the hit list |
| C20, C21 | accessors and setters | induction |
| C22 | `tier_shift`, `grp_shift`, `grid_shift` | loop lemma for distinct entries |
| C23 | `arrange` | induction along the class chain |
| C24, C25 | `containers`, `lower_slice` | argmax lemma; monotonicity for sorted tiers |
| C26, C27 | `tg_init` | C24, C25, C17 over the loop of upper intervals |
| C28 | `within_path`, `obj_id` | induction on the path; injectivity of decimal join |
| C29 | `tier_cleanup`, `gap_pairs` | set lemma on boundaries |
| C30 | `seq_validate` | unfolding + induction for `allclose` |
| C31 | `fuse` | from C17 lemmas |
| C32–C35 | point operations | induction |
| C36 | `return_textgrid` | induction on the name list; refuting list |
| C37 | `nestify` | induction on the class lists |
| C38 | `reclone` | from C13 |
| C39–C41 | accessors | induction |
| C42 | `set_hier` on chains | from C10 |
| C43 | `get_class_by_name` | list lemma on the filtered classes |
| C44 | `grid_intervals_at_time`, `pt_interval` | from C19, induction over groups |
| C45 | `set_partner`, `relate_points`, `set_range` | loop invariant over the levels; refuting twins |
| C46 | label functions, `rng_bands`, `py_slice` | induction over strings; arithmetic |
| C47 | `tier_pop` | C04 + C08 + frame |
| C48 | `tier_concat`, `tier_add` | C02, C05 + C18 |
| C49 | `re_relate` | C23-C26 on a group already in good order; order of relating is irrelevant |
| C50 | `tier_append` on the top tier of a group | C02 + C49 with one more parent and its children |
| C51 | `pop_class` | composition of nesting across a removed level, then C23-C26 |
| C52 | `interleave_class` | splitting of nesting by a copied level, then C23-C26 |
| C53 | `new_grid_textgrid` | C37, C38, C18, C33, C23-C26; cleanup changes nothing |
| C54 | `new_grid_textgrid`, `return_textgrid` | C53 for the grid read, C36/C37 for the rows written; `c54_round` composes them |
| C55 | `grp_concat`, `concat_one`, `class_check`, `seq_shift`, `tier_append` | shifting a tree keeps it a tree (`shift_tree`); induction over the top intervals with C50; the rows of a good group are the levels below its tops (`rows_levels`) |
| C56 | `grp_add`, `zip_add`, `tier_add`, `class_check`, `new_tg` | the rows of both groups are the levels below their tops, so those of the new tiers are the levels below the tops in order; induction over the pairs of tiers with C48, then C49 for the new group |
| C57 | `iter_start`, `iter_next`, `for_in` | induction over the children left; the position of a loop is a counter kept in the interval |
| C58 | `tier_get`, `grp_get`, `grid_get`, `grid_get_at_time` | C44 for the answers, then induction over groups and tiers |
| C59 | `name_groups`, `grid_append_named`, `grid_of_textgrid_named`, `pop_class_named`, `interleave_class_named` | evaluating names changes names only and gives the same when repeated; C51 and C52 for the groups that replace the old ones |
| C60 | `grid_append`, `reclone`, `swap_classes`, `recast_tiers`, `re_relate`, `set_tier_groups`, `set_group_names` | C13 for the clones; the tiers are recast one by one; the recast tiers meet the conditions of C49, which relates them again in the same blocks, so parents and children are the same |
| C61 | `new_grid_groups`, `grid_finish` | induction over the groups with C60; groups not yet or no longer being appended are not touched |
| C62 | `grp_append` | the old tiers and the new one meet the conditions of C49; in a grid the new tier is recast first, as in C60 |
| C63 | `grp_cleanup`, `orphan_pass`, `cleanup_tiers`, `tier_cleanup`, `project_up` | blocks of spans that fill spans still do when the gaps of both are filled; induction down the tiers; then C49 |
| C64 | `grid_cleanup`, `blank_column`, `append_blanks` | C63 group by group: a group shares no tier and no interval with the others, so each stays ready; then all groups start and end together (C20) |
| C65 | `new_grid_textgrid`, `return_textgrid` | C53 up to the clean-up, C64 for that; the filled tiers stand for the plugged entries, group by group; `c65_round` composes it with writing |
| C66 | `new_tg`, `relate_pair`, `relate_all`, `relate_one`, `seq_cleanup` | the result is the one of relating the tiers with all times already cut (`timed`, `wired`), by induction over the upper intervals; cutting makes the blocks tile, so that the clean-up of each interval does nothing |
| C67 | `seq_append`, `subset_setter`, `set_subset_list`, `sl_add`, `tier_append` | the list plus the new child is a sorted permutation without duplicates; the setter takes each child over (`take_own`, `take_move`) and links them (`wired`); in a group by composing with the recursion of C50 over the tiers below |
| C68 | `seq_cleanup`, `gap_fill`, `construct3`, `sl_add`, `seq_append` | the created intervals are one per gap with different start times (`adds`); appending them one by one keeps the children a sorted permutation (C67, `wired` composes), which is the only list that rises; inductive relation `mended` as specification; in a group each appended interval also goes into the tier below (C67_grouped), composed by the frame `fed` |
| C69 | `relate_pair`, `close_gaps`, `relate_one`, `relate_all`, `seq_cleanup`, `seq_append` | closing the gaps of each block is `plugged` (induction over neighbours); each upper interval adopts its block (as for C67), then `cleanup` fills the ends (C68 in a group); induction over the upper intervals with a frame record (`tends`) that keeps later blocks untouched; which children are listed follows from the parents |
| C70 | `seq_plus`, `twin_setter`, `twin_take`, `share` | two objects with one attribute dictionary are two records kept in step (`share`); induction over the new list (`strips`) shows that each former child is removed while the list is walked, a second one that they lose their parent; the other branch is C67's append of the copy |
| C71 | `tier_pop`, `sl_drop`, `remove_superset`, `tier_precedence` | `pop_run` reduces the call to `remove_superset` on the tier without the entry; that is the settled `cut` of TreeProofs, and `tier_precedence_ok` gives the links when the superset class is Top |
| C72 | `interleave_class`, `pop_class`, `return_textgrid` | `working` is shown to be kept by each call (`add_step` and `drop_step`, from C51 and C52) together with the effect on `grid_view`; induction on the changes; filtering the inserted tiers out again gives the undo; a grid that was read is `working` by C53, the chains of its groups being the same because a chain is determined by its classes, and because reading keeps the names of top and bottom classes apart (`naming`, an invariant of every step of reading) |
| C73 | `_set_tier_names` in every method that runs a group's constructor | the operations with names are the ones without (`does_*`, erasure) up to the table of names; `well_tagged` is shown to be kept by each, from what each leaves alone (`aged`, `fixed`, `clso`) |
| C74 | `fuse` in a group in good order, then lists of fusions in a grid | `good_merge` shows that a fusion keeps `good_group` (blocks, tiling, links); `fuse_step` lifts it to `working` grids and `grid_view`; induction over the list |
| C75 | second half of `grid_cleanup` | `blank_in` shows that appending a blank puts it first or last (uniqueness of sorted permutations); induction over tiers (`appends`) and over groups (`level_loop`), with `rowd` kept for the others |
| C76 | `new_grid_textgrid` with `grid_cleanup` | `rows_made_own` builds each row with its own extent, `c75_levelled` levels them, then as `grid_made`; output by `written_plain` |
| C77 | `grid_cleanup`, `new_grid_textgrid` | `level_stage`: the tidied state in between (`tidy_groups`) is shown to consist of rows with known classes, which `level_loop` levels; reading as C76 with `either_tidied` for the gaps |
| C78 | `grid_cleanup`, `blank_column`, `grp_xmin`, `grp_xmax` | `mixed_loop`: going over all groups is going over the interval groups, as a group of points says the same in every state on the way (`spots_widened`), or stops at the first group of points that would need a blank point (`no_blank`) |
| C79 | `new_grid_textgrid`, `grid_cleanup`, `grp_xmin`, `grp_xmax` | the state before cleaning up as in C76 (`rows_made_own`), with `pgroup_says` for what the groups of points say, then C78's `mix_stage` and, if it succeeds, the rest as in C77 |
| C80 | `grp_repr`, `grid_repr`, `tier_repr`, `seq_repr`, `pt_repr`, `grid_tier_names` (new: ShowOps.v) | quoted strings and lists of them can be read back from the front of any text (`decodes`), numbers end at the first character that is no digit, and texts without the separator end at the separator (`cut`) |
| C81 | `tier_slice`, `seq_slice`, `grp_slice`, `grid_slice` (new: SliceOps.v), `seq_pop` | arithmetic of bounds; induction over the slice with the invariant of C15 |
| C82 | `subset_plus` (new: LeftOps.v), `sl_add`, `append_subset_list` | the sum equals the sum in the state where the class is noted, then the lemma of C02 |
| C83 | `append_subset_list`, `subset_setter`, `obj_id` | for appending, the explicit states of C15's proof (`graft`, `cut`); for assigning, what runs after `contains` is set keeps within and grows no list (`homely`) |

A property that is false of the model as first stated is proved with the condition
it needs made explicit; a theorem `..._refuted` beside it gives a state in which the
condition fails and so does the conclusion.

## Trusted base

* Coq's kernel.
* The statements: `Base.v`, `*Ops.v`, `Spec.v`, `*Spec.v`, `History.v`,
  `Properties_*.v`.
* `Print Assumptions` under every theorem of `Properties_*.v` answers "Closed under
  the global context": no theorem depends on an axiom, of the standard library or
  other.  (A listing of all loaded modules also shows a few constants that mathcomp's
  and std++'s dependencies declare, such as `ssr.ssrunder`'s; no theorem uses them.)
* The parameters of `Env` are hypotheses, not axioms: a theorem holds for every
  environment that meets the laws listed above, and `Demo.v` builds one.

Modelled, function by function (each definition cites its lines):

* `sequence_list.py`: all but `__repr__`;
* `sequences/sequences.py`: hierarchy setters and getters, clone, parent and child
  operations, precedence, `append`, `pop`, `shift`, `validate`, `cleanup`, fusion,
  praatio tuples;
* `sequences/tiers.py`: `SequenceTier` and `TierGroup` construction, arranging and
  relating tiers, accessors, `pop`, `cleanup`, `get_interval_at_time`, `shift`;
* `points/`: points, point tiers, points groups, distances, nearest points;
* `mixins/`: `within.py`, `tiermixins.py`, `mixins.py`;
* `aligned_textgrid.py`: reading, appending, cleanup, shift, interleave, pop, class
  lookup, queries, `__repr__`, `tier_names`, the names and tuples of `return_textgrid`;
* `custom_classes.py`, `sequences/word_and_phone.py` (class wiring), the rows of
  `outputs/to_dataframe.py`, `polar/`.

Not modelled: praatio file reading and writing, polars' table assembly, warnings,
`__repr__` of lists, escapes of characters that do not print, slices with a step,
pickling, `return_tier`, `re_init=True`, `None` labels, NaN times, rounding in
subtraction and in `allclose`, parsing of numbers in labels (an arbitrary function).
