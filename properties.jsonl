{"id": "C01", "title": "SequenceList constructor sorts", "statement": "SequenceList(*args) on objects of one class with known start times returns a list with exactly the given objects (same multiset, by identity), in non-decreasing start order; arguments already in order keep their order; arguments of more than one class raise ValueError; in no case is any object changed.", "quantifier": "every finite list of intervals/points, every assignment of start times, every tie-breaking of numpy's unstable argsort", "why_tests_cant": "the sort goes through an unstable numpy argsort after a sortedness shortcut; a test fixes one list and one tie-breaking", "anchors": ["src/aligned_textgrid/sequence_list.py: SequenceList.__init__, _sort"]}
{"id": "C02", "title": "SequenceList + keeps everything and stays sorted", "statement": "a + b for lists of one class returns a list in start order whose elements are exactly a's elements and those elements of b that are not (by identity or by equal start/end/label) already in a; a and b themselves keep their elements; if b's elements have several classes, or a class unrelated to a's, ValueError is raised and nothing changes.", "quantifier": "every pair of lists, including duplicates, ties and empty lists", "why_tests_cant": "the result depends on value equality, sorting and class casting together; tests sample a few lists", "anchors": ["src/aligned_textgrid/sequence_list.py: SequenceList.__add__, __contains__"]}
{"id": "C03", "title": "SequenceList.append keeps order", "statement": "Appending x to a sorted list with all start times known and non-zero gives a sorted list holding exactly the old entries, in their old relative order, plus x once (nothing changes if an equal entry is present); a class unrelated to the list's raises ValueError and changes nothing. (With an entry starting at 0 the order is lost: shown separately.)", "quantifier": "every sorted list and every new entry", "why_tests_cant": "the insertion point comes from a binary search; correctness for all lists is an invariant of the search", "anchors": ["src/aligned_textgrid/sequence_list.py: SequenceList.append"]}
{"id": "C04", "title": "SequenceList remove and pop", "statement": "remove(x) takes out exactly one entry, the first whose start/end/label equal x's, and keeps the order of the rest; it raises ValueError and changes nothing if there is no such entry. Removal keeps a sorted list sorted.", "quantifier": "every list and every x, also when x is only a value-equal twin of an entry", "why_tests_cant": "quantifies over all lists and all coincidences of values", "anchors": ["src/aligned_textgrid/sequence_list.py: SequenceList.remove, pop"]}
{"id": "C05", "title": "SequenceList.concat shifts by the last end", "statement": "When both lists are non-empty, of one class, without duplicates, disjoint, without subset lists, the first with positive durations and the second without negative starts, concat moves every entry of the second list right by the largest end time of the first and leaves the first list's entries untouched; the combined list is sorted and holds both. Relative durations and order of the second list are kept (exact arithmetic). With an empty second list the result is a list that contains itself (shown separately).", "quantifier": "every pair of lists and times", "why_tests_cant": "arithmetic statement over all times", "anchors": ["src/aligned_textgrid/sequence_list.py: SequenceList.concat, _shift"]}
{"id": "C06", "title": "Overlap check is exact", "statement": "For intervals of positive duration the overlap check returns True exactly when no two different entries overlap in time (touching is not overlapping). With an entry of zero duration it can return True although two others overlap.", "quantifier": "every list of (start, end) pairs", "why_tests_cant": "the check counts pairs in an n-by-n matrix; equivalence needs a counting argument for every n", "anchors": ["src/aligned_textgrid/sequence_list.py: SequenceList._check_no_overlaps"]}
{"id": "C07", "title": "fol and prev are symmetric", "statement": "For two different objects of one class with labels other than '#', when x.fol is not already y, x.set_fol(y) ends with x.fol is y and y.prev is x, never raises, terminates, and changes nothing else in any object (likewise y.set_prev(x) when y.prev is not already x); if the link is already set the call changes nothing at all, so the other side can stay out of date (shown separately); for objects of different classes they raise and change nothing; x.set_fol(x) raises and changes nothing.", "quantifier": "every heap of objects, every pair, every prior link state", "why_tests_cant": "set_fol and set_prev call each other; termination and symmetry must hold from every link state, including inconsistent ones", "anchors": ["src/aligned_textgrid/mixins/mixins.py: PrecedenceMixins.set_fol, set_prev"]}
{"id": "C08", "title": "Lists are linked end to end", "statement": "After a parent's children (or a tier's entries, or a point tier's points) are (re)linked, each entry's fol is the next entry, each entry's prev is the one before, the first entry's prev and the last entry's fol are '#' boundary objects that are in no list, whatever the links were before.", "quantifier": "every list of distinct non-'#' objects of one class, every prior link state, every list length", "why_tests_cant": "the relinking loop mutates links in both directions while walking; needs a loop invariant for every length and every stale state", "anchors": ["src/aligned_textgrid/sequences/sequences.py: HierarchyMixins._set_subset_precedence", "src/aligned_textgrid/sequences/tiers.py: SequenceTier.__set_precedence", "src/aligned_textgrid/points/tiers.py: SequencePointTier.__set_precedence"]}
{"id": "C09", "title": "Relinking is local", "statement": "Relinking a list never changes start, end, label, class, parent, children, tier or containment of any existing object, and never changes the links of objects outside the list, except that a former neighbour of a list member is not told.", "quantifier": "every heap and list", "why_tests_cant": "frame property over the entire object graph", "anchors": ["src/aligned_textgrid/mixins/mixins.py: PrecedenceMixins", "src/aligned_textgrid/sequences/sequences.py: _set_subset_precedence"]}
{"id": "C10", "title": "Superset and subset classes agree", "statement": "C.set_superset_class(D) with D another hierarchy class, neither C nor D being named like a Top or Bottom class in the direction concerned, ends with C.superset_class is D and D.subset_class is C, and the same for set_subset_class; no other class's own attributes change; terminates.", "quantifier": "every class table, including cyclic and inconsistent ones", "why_tests_cant": "two class methods call each other until a fixpoint; must hold from every table", "anchors": ["src/aligned_textgrid/sequences/sequences.py: HierarchyMixins.set_superset_class, set_subset_class"]}
{"id": "C11", "title": "custom_classes builds a chain", "statement": "custom_classes(names) for any non-empty duplicate-free list of names, those of the interval classes not containing 'Top' or 'Bottom', returns fresh classes with those names in order, point classes at the requested positions; the superset class of the first interval class is a fresh Top, the subset class of the last a fresh Bottom, and each interval class's subset class is the next one and vice versa; existing classes are unchanged. With a repeated name the same class is returned twice, and a name containing 'Top' gives a class without superset class.", "quantifier": "every duplicate-free list of names of any length, every choice of point positions, every class table already in use", "why_tests_cant": "chain of arbitrary length built by mutual class mutation", "anchors": ["src/aligned_textgrid/custom_classes.py: custom_classes, _make_top, _make_bottom"]}
{"id": "C12", "title": "custom_classes return order", "statement": "With a list of integer positions the classes are returned in exactly that order. With a list of names the result is ordered by the inverse permutation: entry i of the result is the class whose position in the declared list is the position of declared name i in return_order; hence name order is honoured for self-inverse orders, and a 3-cycle is a counterexample to the documented behaviour.", "quantifier": "every duplicate-free list of names and every permutation of it", "why_tests_cant": "the defect is invisible for two names and for any swap; only a statement over all permutations separates them", "anchors": ["src/aligned_textgrid/custom_classes.py: custom_classes"]}
{"id": "C13", "title": "Cloned classes are isolated", "statement": "clone_class of the top class of a well-formed chain returns a new chain of the same length and names whose members are new subclasses of the originals, linked to each other and to a fresh Top/Bottom, and changes no attribute of any existing class.", "quantifier": "every class table containing a well-formed chain of any length", "why_tests_cant": "recursive clone interleaved with class mutation; isolation is a frame property over all classes", "anchors": ["src/aligned_textgrid/custom_classes.py: clone_class"]}
{"id": "C14", "title": "get_class_hierarchy lists the chain", "statement": "get_class_hierarchy(C, L) for any member C of a well-formed chain and any list L of other classes returns L followed by the whole chain from top to bottom, each class once; in particular the chain itself for L = []. Without a second argument the list of the previous call is used, so a second call on another chain does not return that chain.", "quantifier": "every chain length and every starting member", "why_tests_cant": "two-way recursion with an accumulator", "anchors": ["src/aligned_textgrid/custom_classes.py: get_class_hierarchy"]}
{"id": "C15", "title": "Parent and children always agree", "statement": "Starting from no objects, after any sequence of operations (create, append_subset_list, set_super_instance on an orphan, subset_list = ..., remove_from_subset_list, remove_superset, pop, and assignments to start, end and label), including operations that raise: every entry of p.subset_list has super_instance p and occurs once; every object with super_instance p is in p.subset_list; every child's class is the subset class of its parent's class; the subset list's links form an end-to-end chain; if starts are known, non-zero and not reassigned, every subset_list is in start order. append_subset_list and set_super_instance move exactly one child, and refuse a child of the wrong class without changing anything.", "quantifier": "every finite history of API calls over any number of objects and any class hierarchy made of separate chains; labels not '#'; no two children with equal start, end and label", "why_tests_cant": "an invariant over unbounded histories", "anchors": ["src/aligned_textgrid/sequences/sequences.py: HierarchyMixins.set_super_instance, set_subset_list, append_subset_list, remove_from_subset_list, remove_superset, subset_list; SequenceInterval.pop"]}
{"id": "C16", "title": "Removal detaches exactly one child", "statement": "parent.remove_from_subset_list(x), parent.pop(x) or x.remove_superset() for a child x leaves x without parent, removes exactly x from the parent's list keeping the order of the others, relinks the remaining children end to end, and changes no other parent's children.", "quantifier": "every parent, every child, every number of siblings without value-equal twins", "why_tests_cant": "frame + list property over arbitrary families", "anchors": ["src/aligned_textgrid/sequences/sequences.py: remove_from_subset_list, remove_superset, SequenceInterval.pop", "src/aligned_textgrid/sequence_list.py: remove, pop"]}
{"id": "C17", "title": "Assigning subset_list", "statement": "parent.subset_list = l for a list of distinct unrelated objects of the child class makes the parent's children exactly l in start order, each with super_instance parent, linked end to end; former children not in l lose their parent; former parents of members of l lose them. (set_subset_list/set_phones without the setter leaves stale parents: shown separately.)", "quantifier": "every parent and every list of candidates, including ones owned by other parents", "why_tests_cant": "requires the invariant over the whole object graph", "anchors": ["src/aligned_textgrid/sequences/sequences.py: SequenceInterval.subset_list, set_subset_list"]}
{"id": "C18", "title": "Tier construction", "statement": "SequenceTier(list of raw intervals or objects, or another tier, cls) gives a tier whose entries are the inputs in start order (the given order if that is sorted), one object of class cls per input with its start, end and label (the object itself if the input is one, keeping its parent and children), each entry's intier is the tier, and entries are linked end to end; nothing else that existed changes. If an entry is of the wrong kind an AssertionError is raised.", "quantifier": "every list of distinct entries with known starts, none labelled '#', and every state", "why_tests_cant": "all input lists, all orders", "anchors": ["src/aligned_textgrid/sequences/tiers.py: SequenceTier.__init__, __set_precedence"]}
{"id": "C19", "title": "get_interval_at_time", "statement": "On a tier whose intervals do not overlap, get_interval_at_time(t) returns the index i of the only interval with start_i <= t < end_i, and None exactly when no interval contains t. If two intervals contain t it raises TypeError instead of returning an index.", "quantifier": "every tier and every time", "why_tests_cant": "universally quantified over times and tiers; half-open boundary cases", "anchors": ["src/aligned_textgrid/sequences/tiers.py: SequenceTier.get_interval_at_time"]}
{"id": "C20", "title": "xmin and xmax", "statement": "xmin/xmax of a tier are the least start and the greatest end of its entries, None for an empty tier; of a TierGroup the least/greatest over its (non-empty) tiers.", "quantifier": "every tier and group", "why_tests_cant": "all sizes and orders", "anchors": ["src/aligned_textgrid/sequences/tiers.py: SequenceTier.xmin, xmax, TierGroup.xmin, xmax"]}
{"id": "C21", "title": "starts/ends setters", "statement": "tier.starts = v with len(v) equal to the number of entries makes tier.starts equal v and leaves ends, labels, links and everything else as they were; a different length raises and changes nothing. Same for ends.", "quantifier": "every tier of distinct entries and every vector", "why_tests_cant": "frame property", "anchors": ["src/aligned_textgrid/sequences/tiers.py: SequenceTier.starts, ends"]}
{"id": "C22", "title": "Shift moves every time by the increment", "statement": "shift(d) on a tier, group or text grid whose tiers list distinct entries with known times adds d to every start and end exactly once and changes nothing else: labels, links, parents, children and tier contents stay. shift(d) then shift(-d) restores the state (exact arithmetic). For rounded but monotone addition the order of all times is kept.", "quantifier": "every grid, every increment, every monotone rounding", "why_tests_cant": "all states; a double shift of an entry shared by two containers would be missed by small tests", "anchors": ["src/aligned_textgrid/sequences/tiers.py: SequenceTier._shift, TierGroup.shift", "src/aligned_textgrid/points/tiers.py: SequencePointTier._shift, PointsGroup.shift", "src/aligned_textgrid/aligned_textgrid.py: AlignedTextGrid.shift"]}
{"id": "C23", "title": "Tier order in a TierGroup", "statement": "TierGroup(tiers) given one tier per class of a complete class chain, in any order, arranges them from the top class to the bottom class and makes the group the container of every tier.", "quantifier": "every permutation of every chain length", "why_tests_cant": "all permutations of all lengths", "anchors": ["src/aligned_textgrid/sequences/tiers.py: TierGroup._arrange_tiers"]}
{"id": "C24", "title": "Each lower interval goes to the upper interval it overlaps most", "statement": "When two tiers are related, the upper interval chosen for a lower interval has the largest overlap with it among all upper intervals (the first such on ties); if some upper interval contains it entirely and the upper intervals do not overlap, that one is chosen.", "quantifier": "every pair of tiers with positive-duration lower intervals", "why_tests_cant": "an optimisation property over all pairs, including partial overlaps on both sides", "anchors": ["src/aligned_textgrid/sequences/tiers.py: TierGroup.__init__"]}
{"id": "C25", "title": "Lower intervals are partitioned in order", "statement": "When both tiers are sorted and non-overlapping, the blocks of lower intervals handed to successive upper intervals are consecutive, disjoint, in order, and together are all lower intervals.", "quantifier": "every pair of sorted tiers", "why_tests_cant": "monotonicity of an argmax over all tiers; a gap or a double assignment only shows for particular overlaps", "anchors": ["src/aligned_textgrid/sequences/tiers.py: TierGroup.__init__ (423-448)"]}
{"id": "C26", "title": "Relating snug tiers is exact", "statement": "TierGroup(tiers) of tiers of a complete class chain, not yet related, where the intervals of each tier tile every interval of the tier above exactly, leaves all times, labels and tier contents unchanged, gives every upper interval exactly the lower intervals inside it, in order, sets their super_instance, links them end to end within each upper interval, and creates no new interval in any tier.", "quantifier": "every number of tiers and of intervals on them, in any order of the tiers", "why_tests_cant": "global statement over tiers of any length", "anchors": ["src/aligned_textgrid/sequences/tiers.py: TierGroup.__init__"]}
{"id": "C27", "title": "Times and intervals_at_time across tiers", "statement": "On related snug tiers, whenever get_intervals_at_time(t) finds an interval on the lower tier it finds one on the upper tier, and the former is a child of the latter.", "quantifier": "every time, every pair of snug tiers", "why_tests_cant": "all times", "anchors": ["src/aligned_textgrid/sequences/tiers.py: TierGroup.get_intervals_at_time"]}
{"id": "C28", "title": "Paths and ids identify objects", "statement": "within_path lists the indices to follow from the outermost container: following them through contains leads back to the object. Hence two objects with the same outermost container and the same path are the same object, and their ids (decimal indices joined by '-') are equal only if the paths are equal.", "quantifier": "every containment structure and every pair of objects", "why_tests_cant": "injectivity over all pairs", "anchors": ["src/aligned_textgrid/mixins/within.py: WithinMixins.within_path, id"]}
{"id": "C29", "title": "Gap filling of a tier", "statement": "Cleaning up a stand-alone sorted tier of non-overlapping positive-duration intervals after time 0 adds intervals with an empty label exactly in the gaps and nowhere else: existing entries are kept unchanged and in order, and afterwards the tier is snug (every start but the first equals the previous end) from the same xmin to the same xmax. If every start already lies within the comparison tolerance of the previous end, nothing changes at all.", "quantifier": "every number, size and position of gaps, every tier whose entries start after 0 (a start of 0 meets append's defect, shown by a counterexample)", "why_tests_cant": "the gap boundaries come from set operations on all boundaries; exactness is a theorem about all tiers", "anchors": ["src/aligned_textgrid/sequences/tiers.py: SequenceTier.cleanup"]}
{"id": "C30", "title": "validate is exact", "statement": "validate() on an interval with known times and children returns True exactly when the first child starts at the parent's start, the last child ends at its end and each child starts where its predecessor ends (within numpy's default tolerance), and True when there are no children; it changes nothing.", "quantifier": "every interval and every list of children", "why_tests_cant": "iff over all families", "anchors": ["src/aligned_textgrid/sequences/sequences.py: HierarchyMixins.validate"]}
{"id": "C31", "title": "Fusion", "statement": "a.fuse_rightwards() with a right neighbour b that is not a '#' boundary makes a end where b ended, joins the labels with the label function, moves b's children after a's (linked in order, with a as parent), takes b out of the parent's children (and only b) and out of the tier a is in (and only b), leaves b without parent and children, and leaves all other times, labels, parents, children and tiers unchanged; the children of every parent are then linked in order again if a is in a tier, and the tier itself is linked again if its superset class is Top itself. At a '#' boundary it raises and changes nothing. fuse_leftwards is the mirror image. (It is guarded: families in order, non-overlapping children. Without a tier, or below a copy of Top as in every text grid, the next neighbour keeps the removed interval as predecessor: refuted.)", "quantifier": "every state whose families are in order (in particular every state reached by the calls of C15), every interval with a neighbour, every label function, both directions, any number of children", "why_tests_cant": "multi-object mutation; frame property", "anchors": ["src/aligned_textgrid/sequences/sequences.py: SequenceInterval.fuse_rightwards, fuse_leftwards", "src/aligned_textgrid/sequences/tiers.py: SequenceTier.pop"]}
{"id": "C32", "title": "Nearest point", "statement": "get_nearest_point_index(t) on a non-empty point tier returns an index whose point is at least as close to t as every other point, the first such.", "quantifier": "every tier and time", "why_tests_cant": "minimisation over all tiers", "anchors": ["src/aligned_textgrid/points/tiers.py: SequencePointTier.get_nearest_point_index"]}
{"id": "C33", "title": "Point tier construction", "statement": "SequencePointTier(list of raw points or objects) gives a tier with exactly one point per different (time, label), in time order, linked end to end, each in and within the tier; in particular one point per input if no two inputs share time and label. Value-equal duplicates are dropped. Nothing else that existed changes.", "quantifier": "every list of points with known times, none labelled '#', every state, every tie-breaking of argsort", "why_tests_cant": "unstable sort plus sorted insertion", "anchors": ["src/aligned_textgrid/points/tiers.py: SequencePointTier.__init__"]}
{"id": "C34", "title": "Point distances", "statement": "fol_distance is the following point's time minus the point's time, prev_distance the previous point's time minus the point's time, None at a boundary; if the neighbour's time is exactly 0 the answer is None although a neighbour exists.", "quantifier": "every linked pair of points", "why_tests_cant": "the falsy-zero case is a single value that tests miss", "anchors": ["src/aligned_textgrid/points/points.py: SequencePoint.fol_distance, prev_distance, distance_from"]}
{"id": "C35", "title": "PointsGroup.xmax", "statement": "PointsGroup.xmin is the time of the earliest point over its tiers; xmax is the largest of the tiers' earliest times. It never exceeds the latest point's time, and equals it exactly when some tier has all its points at that time.", "quantifier": "every points group", "why_tests_cant": "agrees with the intended value on one-point tiers", "anchors": ["src/aligned_textgrid/points/tiers.py: PointsGroup.xmin, xmax"]}
{"id": "C36", "title": "Tier names of the exported textgrid", "statement": "return_textgrid exports every tier once, in order, with its entries' start, end and label; if no tier's own name looks like another's name plus '_<number>', all output names are distinct, and a name is changed only if it occurred before.", "quantifier": "every list of tier names", "why_tests_cant": "collision freedom over all name lists; the collision case is shown separately", "anchors": ["src/aligned_textgrid/aligned_textgrid.py: AlignedTextGrid.return_textgrid"]}
{"id": "C37", "title": "Assigning tiers to groups", "statement": "A flat class list [C1..Ck] with at most one top class applied to n*k tiers forms n groups of k consecutive tiers with classes C1..Ck in order, no tier lost or duplicated; a nested class list assigns tiers consecutively. If the number of tiers is not a multiple of k the last (n mod k) tiers are dropped silently.", "quantifier": "every number of tiers, every class list", "why_tests_cant": "all n and k", "anchors": ["src/aligned_textgrid/aligned_textgrid.py: AlignedTextGrid._extend_classes, _nestify_tiers"]}
{"id": "C38", "title": "A grid uses its own copies of the classes", "statement": "Building a grid (from a textgrid or from groups), appending a group to a grid and appending a tier to a group of a grid change no attribute of any class that existed before. When the classes given are point classes or members of well-formed class chains, every tier of the grid then has a class that this grid made itself, the grid's classes form whole chains, and two grids share no class.", "quantifier": "every class table, every heap of tiers, groups and grids, every list of entry classes and every outcome of the call (for the frame part); every successful call (for the rest)", "why_tests_cant": "isolation between grids is a frame property over all classes", "anchors": ["src/aligned_textgrid/aligned_textgrid.py: AlignedTextGrid._reclone_classes, _swap_classes"]}
{"id": "C39", "title": "get_class_by_name", "statement": "Returns the class with that name when exactly one entry class of the grid has it, all of them when several have it, None when none has; changes nothing.", "quantifier": "every grid and name", "why_tests_cant": "iff over all grids", "anchors": ["src/aligned_textgrid/aligned_textgrid.py: AlignedTextGrid.get_class_by_name"]}
{"id": "C40", "title": "to_df rows", "statement": "With subsets, the table of an interval has one row per bottom-level descendant (one row if it has no children) and each row starts with the interval and follows containment; without subsets the table of a group has exactly one row per entry of each tier.", "quantifier": "every containment tree of any depth and branching", "why_tests_cant": "structural recursion of any depth", "anchors": ["src/aligned_textgrid/outputs/to_dataframe.py: to_df, sequence_to_df, tier_to_df, tiergroup_to_df"]}
{"id": "C41", "title": "get_tierwise", "statement": "x.get_tierwise(k) returns the entry k positions after x in its tier when that position exists; get_tierwise(0) is x; beyond the right end it raises IndexError; before the left end it wraps around to the end of the tier (Python negative indexing).", "quantifier": "every tier, entry and offset", "why_tests_cant": "negative-index wraparound only shows for particular offsets", "anchors": ["src/aligned_textgrid/mixins/mixins.py: InTierMixins.get_tierwise, tier_index"]}
{"id": "C42", "title": "Class changes when a class is popped from or interleaved into a chain", "statement": "In a well-formed chain none of whose classes derives from another, the class changes made by pop_class for a member (using its superset and subset class) leave a chain without that member, and those made by interleave_class leave a chain with the new class at the chosen place; no class other than the new one and the two neighbours changes.", "quantifier": "every chain and position", "why_tests_cant": "mutual class mutation over chains of any length", "anchors": ["src/aligned_textgrid/aligned_textgrid.py: AlignedTextGrid.interleave_class, pop_class", "src/aligned_textgrid/sequences/sequences.py: set_superset_class, set_subset_class"]}
{"id": "C43", "title": "Finding the interval around a point", "statement": "For a point and an interval tier with known times of which at most one interval contains the point's time, get_interval_index_at_time returns that interval's position (None if there is none) and get_interval_at_point returns the interval itself; if none contains it, get_interval_at_point returns None on an empty tier and raises TypeError on any other; if two contain it, both raise TypeError.", "quantifier": "every point, every interval tier", "why_tests_cant": "half-open containment over arbitrarily many intervals, and error cases depending on the data", "anchors": ["src/aligned_textgrid/points/points.py: SequencePoint.get_interval_index_at_time, get_interval_at_point", "src/aligned_textgrid/sequences/tiers.py: SequenceTier.get_interval_at_time"]}
{"id": "C44", "title": "Looking up a time across a group or a text grid", "statement": "get_intervals_at_time of a tier group, points group or text grid answers, group by group and tier by tier in order, for interval tiers the position of the only interval around the time (None exactly if there is none) and for point tiers the position of the first nearest point, and changes nothing; a single empty point tier anywhere makes the call raise ValueError.", "quantifier": "every text grid, every time at which no tier has two intervals", "why_tests_cant": "nested lists over any number of groups and tiers", "anchors": ["src/aligned_textgrid/aligned_textgrid.py: AlignedTextGrid.get_intervals_at_time", "src/aligned_textgrid/sequences/tiers.py: TierGroup.get_intervals_at_time", "src/aligned_textgrid/points/tiers.py: PointsGroup.get_intervals_at_time"]}
{"id": "C45", "title": "Relating PoLaR levels to turning points and ranges", "statement": "Relating the Levels tier to the TurningPoints tier always ends, and gives each level as turning_point exactly the nearest turning point if that is at practically the same time (numpy's tolerance), and each turning point so chosen as level its own nearest level under the same condition; if each is the other's nearest, they know each other, but a turning point shared by two levels knows only one. Relating levels to ranges gives each level the range interval it lies in; a first level that lies in none raises TypeError.", "quantifier": "every pair of point tiers, every range tier", "why_tests_cant": "mutual recursion between two tiers of any size: termination and outcome depend on all times", "anchors": ["src/aligned_textgrid/polar/polar_classes.py: Levels.set_turning_point, TurningPoints.set_level, Levels.set_range_interval", "src/aligned_textgrid/polar/polar_grid.py: PolarGrid._relate_levels_and_points, _relate_levels_and_ranges"]}
{"id": "C46", "title": "What PoLaR labels mean", "statement": "A PrStr, TurningPoints or Levels label containing '?' is uncertain and any other certain; a PrStr label with '*' is a prominence, one with ']' but no '*' an edge, any other is returned itself; a TurningPoints override is what follows the last comma (the whole label without one), None if that is \"0\"; a Ranges label low-high gives the two numbers, nan for both if one cannot be read, and a label with one number has no high; a Levels label is read without its '?'; the band of level 1 to 5 are the two neighbouring fifths of the range, other levels having fewer than two.", "quantifier": "every label", "why_tests_cant": "all strings", "anchors": ["src/aligned_textgrid/polar/polar_classes.py: PrStr, TurningPoints, Ranges, Levels"]}
{"id": "C47", "title": "Appending to a tier in no group", "statement": "Appending a new interval of a related class to a tier of intervals that is in no group puts it, and nothing else, into the tier's entries; afterwards these are in start order, linked to each other and know the tier, the new one has the tier's class and keeps its times, label, parent and children, and no other object changed. An interval already listed, itself or as one of the same class, times and label, is not added again. An unrelated class raises ValueError. The first entry of an empty tier keeps its own class. A point appended to a tier of points is sorted in, but neither linked nor told its tier.", "quantifier": "every tier in no group, every object", "why_tests_cant": "all tiers, all positions of the new entry, frame of all other objects", "anchors": ["src/aligned_textgrid/mixins/tiermixins.py: TierMixins.append", "src/aligned_textgrid/sequences/tiers.py: SequenceTier.sequence_list", "src/aligned_textgrid/points/tiers.py: SequencePointTier.sequence_list"]}
{"id": "C48", "title": "Adding and concatenating tiers", "statement": "tier1 + tier2 is a new tier with the entries of tier1 and those of tier2 that tier1 does not already list, in start order, linked, all of tier1's class, with unchanged times, labels, parents and children; the lists of both old tiers are unchanged, though the entries now know the new tier. Adding tiers of different kinds or unrelated classes raises ValueError. tier1.concat(tier2) moves the entries of tier2 and everything below them by exactly the largest end time of tier1 and puts them, in order, behind tier1's entries, which stay where they are; all entries are then linked and know tier1.", "quantifier": "every two tiers of related classes, every depth of subset lists", "why_tests_cant": "all tiers and depths", "anchors": ["src/aligned_textgrid/mixins/tiermixins.py: TierMixins.__add__, concat", "src/aligned_textgrid/sequence_list.py: SequenceList.__add__, concat"]}
{"id": "C49", "title": "Relating tiers again", "statement": "A tier group can be made from tiers whose intervals are already related, rightly or wrongly, and a group can be related again: when the intervals of each tier fill those of the tier above, every interval ends up with exactly the intervals that fill it as its children, in order, and with no former parent listing it; the top intervals have no parent; every tier knows its group and its position. No time, label, class, tier membership or grid changes, and no interval outside the tiers and their relatives changes at all. Relating a group that is in order gives every interval the parent it had.", "quantifier": "every chain of tiers, every number of intervals, every former relation", "why_tests_cant": "all former states of parents and children, frame of all other objects", "anchors": ["src/aligned_textgrid/sequences/tiers.py: TierGroup.__init__", "src/aligned_textgrid/mixins/tiermixins.py: TierGroupMixins.re_relate", "src/aligned_textgrid/sequences/sequences.py: SequenceInterval.set_subset_list, remove_superset"]}
{"id": "C50", "title": "Appending to a tier of a group", "statement": "Appending a top interval without a parent, whose intervals on the levels below fill each other without gaps, to the top tier of a group in good order, at a place where it overlaps nothing, puts every one of its descendants into the tier of its level, between the entries before and those after it; the group is then again in good order: intervals of each tier fill those above, have them as parents, are linked, and know their tier and group. No time, label, class, parent or child of any interval changes, and intervals in none of the group's tiers do not change at all. An interval already in the tier is not added again. Without descendants the group does not stay in order (links run across words), and a word equal to one already there, with equal syllables, ends in RecursionError.", "quantifier": "every group with any number of tiers and entries, every interval with descendants of any number", "why_tests_cant": "all depths and shapes of the hierarchy, all positions, frame of all other objects", "anchors": ["src/aligned_textgrid/mixins/tiermixins.py: TierMixins.append, TierGroupMixins.re_relate", "src/aligned_textgrid/sequences/tiers.py: SequenceTier.sequence_list, TierGroup.__init__"]}
{"id": "C51", "title": "Removing a class of tiers from a grid", "statement": "Removing a class by name from a grid whose groups are in good order replaces every group that has a tier of the class by a new group of its other tiers, in the same order and with the group's own name, and leaves the other groups (of points, or without the class) as they are. The classes above and below the removed one become each other's subset and superset class; every interval of the level above gets as its children, in order, exactly the intervals of the level below that lie in it; if the class was the lowest, the intervals above it are left without children. No tier, time, label or class of an interval changes and other grids do not change. A class no tier has changes nothing. The only class of a grid is not removed, without notice, and the intervals of a removed tier go on naming parents that no longer list them.", "quantifier": "every grid with any number of groups, tiers and intervals, every class at any place in the hierarchy", "why_tests_cant": "all depths of the hierarchy and positions of the class, all shapes of the groups, frame of all other objects", "anchors": ["src/aligned_textgrid/aligned_textgrid.py: AlignedTextGrid.pop_class", "src/aligned_textgrid/sequences/tiers.py: TierGroup.__init__", "src/aligned_textgrid/mixins/tiermixins.py: TierGroupMixins.re_relate"]}
{"id": "C52", "title": "Adding a class of tiers to a grid", "statement": "Interleaving a new class above or below a named class of a grid whose groups are in good order gives every group that has the named class a new tier of the new class, placed directly above (below) the tier of the named class, whose intervals are copies, one for one and in order, of those of the neighbouring tier the times are taken from: same times, and the same labels or empty ones as asked. The group is rebuilt in good order: same other tiers, same name, every interval of each level having as children exactly the intervals of the next level lying in it. Groups without the named class (such as points) are left alone. The new class has the given name and stands between the two classes it was put between; no other class changes. Times, labels, classes and contents of all old tiers and intervals stay the same and other grids do not change. Naming a class no tier has raises AttributeError and leaves grids, groups, tiers and intervals as they were. When the tier the times come from is empty, tiers are lost from the grid; when there is no such tier, the call fails after having changed the hierarchy of classes.", "quantifier": "every grid with any number of groups, tiers and intervals, every class and place in the hierarchy, both choices of above/below, of where times come from, and of copying labels", "why_tests_cant": "all depths of the hierarchy and positions of the new class, all shapes of groups and numbers of intervals, frame of all other objects", "anchors": ["src/aligned_textgrid/aligned_textgrid.py: AlignedTextGrid.interleave_class", "src/aligned_textgrid/aligned_textgrid.py: AlignedTextGrid.get_class_by_name", "src/aligned_textgrid/custom_classes.py: custom_classes"]}
{"id": "C53", "title": "Reading a text grid", "statement": "Making a grid from the tiers of a text grid, whose interval tiers nest, last for the same stretch of time in every group and have no gap beyond the tolerance, succeeds. It gives, for each row of tiers and classes, one group of the interval tiers, in the order of the class hierarchy whatever their order in the file, and one group of the point tiers. Each interval tier has the name of the tier read and, in order, one interval for each of its entries with that entry's times and label; each point tier has, in order of time, one point for each different entry. The groups are in good order: each interval is a child of the interval of the next level up that contains it, precedence links and containers are set, every group has a name and belongs to the grid, and no filler intervals are added. The classes of the tiers are new copies of the classes given, with the same names, in hierarchies of the same shape; nothing that existed before changes. This holds for a list of classes per group, for one list used for all groups, and for one list with the classes of several hierarchies in any order; tiers beyond the classes are left out. A text grid of nothing but points raises ValueError, and of two given classes with the same name only one counts.", "quantifier": "every text grid with any number of groups, tiers, intervals and points, every class hierarchy, order of tiers and way of giving the classes", "why_tests_cant": "all numbers and depths of tiers, all orders and shapes of nesting, frame of all other objects", "anchors": ["src/aligned_textgrid/aligned_textgrid.py: AlignedTextGrid.__init__, _process_textgrid_arg, _nestify_tiers, _extend_classes, _reclone_classes, _swap_classes, _relate_tiers, cleanup, _set_group_names", "src/aligned_textgrid/sequences/tiers.py: SequenceTier.__init__, TierGroup.__init__, TierGroup.cleanup", "src/aligned_textgrid/points/tiers.py: SequencePointTier.__init__, PointsGroup.__init__"]}
{"id": "C54", "title": "Writing what was read", "statement": "A grid made from a text grid and turned back into a praatio text grid without any change in between writes exactly the tiers that were read (those for which classes were given): under the same names if these are different; every interval tier with the same entries in the same order, every point tier with the same entries, each once, in order of time. Within a row the interval tiers come first, in the order of the class hierarchy, then the point tiers in the order of the file; rows stay in order.", "quantifier": "every text grid with any number of groups, tiers, intervals and points whose interval tiers nest, last for the same stretch of time and have no gap beyond the tolerance, every class hierarchy, order of tiers and way of giving the classes", "why_tests_cant": "all numbers and depths of tiers, all orders and shapes of nesting", "anchors": ["src/aligned_textgrid/aligned_textgrid.py: AlignedTextGrid.__init__, return_textgrid", "src/aligned_textgrid/sequences/tiers.py: SequenceTier.return_tier", "src/aligned_textgrid/points/tiers.py: SequencePointTier.return_tier"]}
{"id": "C55", "title": "Concatenating tier groups", "statement": "Concatenating a tier group to another one of the same classes, both in good order, moves everything in the second by the end time of the first and puts the intervals of each tier of the second after those of the corresponding tier of the first. The first group is in good order afterwards: the intervals of each tier fill those above, have them as parents, are linked, and know their tier and group. The moved intervals keep class, label, parent and children and all their times move by the same amount; the intervals of the first group keep class, times, label, parent and children; intervals in neither group do not change at all, and neither do other tiers, groups or grids (the second group goes on listing the intervals that were moved). Groups with different class names raise ValueError and change nothing; a points group with a point raises AttributeError and changes nothing. If the classes are different but have the same names, ValueError is raised when an interval of the second group has been moved already.", "quantifier": "every two groups with any number of tiers and intervals and any nesting", "why_tests_cant": "all depths and shapes of the hierarchy, frame of all other objects", "anchors": ["src/aligned_textgrid/mixins/tiermixins.py: TierGroupMixins.concat, TierGroupMixins._class_check, TierMixins.append", "src/aligned_textgrid/sequences/tiers.py: SequenceTier._shift, TierGroup.xmax"]}
{"id": "C56", "title": "Adding tier groups", "statement": "Adding a tier group to another one of the same classes, both in good order, where the top intervals of the two together do not overlap, gives a new group, named like the first, with new tiers. The top tier of the new group has the top intervals of both in order of time; each lower tier has the intervals below these, in the same order. The new group is in good order: the intervals of each tier fill those above, have them as parents, are linked, and know their new tier. All intervals keep class, times, label, parent and children; intervals in neither group do not change at all, and neither do other tiers, groups or grids. The added groups list the same intervals as before, but these now say that they are in the new tiers and follow one another across the two groups. Groups with different class names raise ValueError and change nothing.", "quantifier": "every two groups with any number of tiers and intervals and any nesting", "why_tests_cant": "all depths and shapes of the hierarchy, frame of all other objects", "anchors": ["src/aligned_textgrid/mixins/tiermixins.py: TierGroupMixins.__add__, TierGroupMixins._class_check, TierMixins.__add__", "src/aligned_textgrid/sequences/tiers.py: TierGroup.__init__, SequenceTier.__init__"]}
{"id": "C57", "title": "Loops over an interval", "statement": "A for loop over an interval visits the interval's children, each exactly once and in order, and raises only what its body raises, as long as the body neither changes the children nor loops over the same interval. A loop over each child inside a loop over the parent visits all of them. A loop inside a loop over the same interval makes the outer one stop after its first round. Removing the visited child from the interval in each round visits and removes every other child only.", "quantifier": "every interval with any number of children, every loop body", "why_tests_cant": "all loop bodies and all numbers of children", "anchors": ["src/aligned_textgrid/sequences/sequences.py: SequenceInterval.__iter__, SequenceInterval.__next__, SequenceInterval.pop"]}
{"id": "C58", "title": "Indexing tiers, groups and grids", "statement": "Indexing a tier, group or grid with an int gives the entry, tier or group of that number, counted from the end if negative, and raises IndexError if there is none. Indexing a grid with what get_intervals_at_time answers gives, for each tier, the interval around that time or a nearest point, if every interval tier has an interval there; if one has not, TypeError is raised. A list of the wrong size raises an exception. Indexing changes nothing.", "quantifier": "every grid with any numbers of groups, tiers and entries, every index and time", "why_tests_cant": "all sizes, times and states", "anchors": ["src/aligned_textgrid/aligned_textgrid.py: AlignedTextGrid.__getitem__, get_intervals_at_time", "src/aligned_textgrid/sequences/tiers.py: SequenceTier.__getitem__, TierGroup.__getitem__", "src/aligned_textgrid/points/tiers.py: SequencePointTier.__getitem__, PointsGroup.__getitem__"]}
{"id": "C59", "title": "Groups as attributes of a grid", "statement": "After a text grid has been read or a group has been appended, each group of the grid is the value of the attribute of its name if the names of the groups are different, and other attributes keep their values; if two groups have the same name no attribute is given. After pop_class or interleave_class the attribute of a changed group still leads to the group from before the change, which is no longer in the grid, although a group of that name is.", "quantifier": "every grid with any number of groups and any names (not names of methods), every prior assignment of attributes", "why_tests_cant": "all numbers of groups and all names; the outdated attribute occurs for every changed group", "anchors": ["src/aligned_textgrid/aligned_textgrid.py: AlignedTextGrid._set_group_names, append, __init__, pop_class, interleave_class", "src/aligned_textgrid/mixins/tiermixins.py: TierGroupMixins.name, make_name"]}
{"id": "C60", "title": "Appending a tier group to a grid", "statement": "Appending a tier group in good order to a grid that has no class of the names of the group's classes, or has a whole chain of classes with all these names, succeeds. The group becomes the last one of the grid and is in good order, with the same tiers and the same intervals with the same times, labels, parents and children. The classes of its tiers and intervals are now the grid's: new clones of the group's classes in the first case, the classes the grid already had in the second. Every tier has the name of its class, tiers and intervals know where they are, a name of the group is kept, and everything outside the group and the grid is as before. If the grid has some of the names only, tiers are dropped from the group or a ValueError is raised.", "quantifier": "every tier group with any number of tiers and intervals and any classes, every grid with any groups and collected classes", "why_tests_cant": "all sizes, hierarchies and combinations of names of classes of the grid and the group", "anchors": ["src/aligned_textgrid/aligned_textgrid.py: AlignedTextGrid.append, _reclone_classes, _swap_classes, _set_group_names", "src/aligned_textgrid/sequences/sequences.py: SequenceInterval._cast", "src/aligned_textgrid/sequences/tiers.py: SequenceTier.__init__, TierGroup.__init__"]}
{"id": "C61", "title": "A grid made of tier groups", "statement": "AlignedTextGrid given a list of tier groups in good order that share no tiers or intervals, where the class names of any two groups are the same or have nothing in common, has these groups in this order, each in good order with its tiers and intervals and with new classes of the same names as before; groups with the same class names share their new classes. Nothing else changes.", "quantifier": "every list of tier groups of any length with any number of tiers and intervals", "why_tests_cant": "all numbers and sizes of groups and all patterns of shared class names", "anchors": ["src/aligned_textgrid/aligned_textgrid.py: AlignedTextGrid.__init__, _process_textgrid_arg, append"]}
{"id": "C62", "title": "Appending a tier to a group", "statement": "Appending to a tier group in no grid a tier whose class is next to those of the group's tiers, and whose intervals fit, succeeds: the group is in good order with all its tiers, arranged by class, and nothing else changes. In a grid the tier and its intervals first get the class of that name the grid uses. A points group gets the tier as its last. A tier of points for intervals or the other way round, a tier of a class the group has, a tier of a class next to none of the group's, and in a grid a tier of a lower class the grid does not know are refused with ValueError and nothing changes. The group loses a name given by the user.", "quantifier": "every group with any number of tiers and intervals, every tier and class, every grid the group may be in", "why_tests_cant": "all positions of the new class in hierarchies of any depth, all sizes, and the absence of any other change", "anchors": ["src/aligned_textgrid/sequences/tiers.py: TierGroup.__init__", "src/aligned_textgrid/points/tiers.py: PointsGroup.__init__", "src/aligned_textgrid/mixins/tiermixins.py: TierGroupMixins.append", "src/aligned_textgrid/aligned_textgrid.py: AlignedTextGrid._reclone_classes, _swap_classes"]}
{"id": "C63", "title": "Cleaning up a tier group fills its gaps", "statement": "Cleaning up a tier group in good order in whose first tier two intervals are apart by more than the tolerance puts, in every tier and for every gap, one interval with the empty label that lasts exactly as long as the gap; the tiers then have no gaps, the group is in good order, every interval there was keeps its times, label, parent and children, and nothing else changes. If there is no such gap nothing changes, so cleaning up twice is like cleaning up once. All times must be positive: with an interval that starts at 0 the new intervals are put at the end of the tiers. The new intervals in the first tier are not linked with their neighbours.", "quantifier": "every group in good order with any number of tiers and intervals and any gaps between them", "why_tests_cant": "any depth, any number of gaps anywhere, and the absence of any other change", "anchors": ["src/aligned_textgrid/sequences/tiers.py: TierGroup.cleanup, TierGroup._project_up, SequenceTier.cleanup", "src/aligned_textgrid/mixins/tiermixins.py: TierGroupMixins.re_relate"]}
{"id": "C64", "title": "Cleaning up a grid fills the gaps of its groups", "statement": "Cleaning up a grid whose interval tier groups are in good order and all start at the same time and end at the same time fills the gaps of each group that has one (an interval with the empty label in every tier for every gap) and leaves the tiers and intervals of the other groups as they are; groups have no interval in common afterwards; all intervals keep their times, labels, parents and children, points groups and all other objects are unchanged, and no error is raised. If the groups end at different times, the longest group gets intervals that end where they start and the intervals added to the shorter one are not related to each other; if there is a points group as well, an error is raised.", "quantifier": "every grid with any number of groups of intervals and of points, any number of tiers and intervals, any gaps", "why_tests_cant": "any number of groups with any gaps, and the absence of any other change", "anchors": ["src/aligned_textgrid/aligned_textgrid.py: AlignedTextGrid.cleanup", "src/aligned_textgrid/sequences/tiers.py: TierGroup.cleanup"]}
{"id": "C65", "title": "Reading a text grid with gaps", "statement": "Making a grid from the tiers of a text grid whose interval tiers nest and have gaps between their entries succeeds if the time of the first entry is positive. It gives the same grid as C53 except that each group in which a tier has a gap beyond the tolerance has, in every tier, an interval with the empty label for every gap: the entries of each such tier are those of the file, in order and unchanged, with the new ones between them, so that nothing is left uncovered, and the group is in good order. Groups without such a gap are read as C53 says. Written out again, the tiers are those of the file with the gaps filled. If the text grid begins at 0, what fills the gaps comes after all other intervals.", "quantifier": "every text grid with any number of groups, tiers, intervals and points and any gaps, every class hierarchy, order of tiers and way of giving the classes", "why_tests_cant": "all numbers and depths of tiers, all gaps in any of them, frame of all other objects", "anchors": ["src/aligned_textgrid/aligned_textgrid.py: AlignedTextGrid.__init__, _relate_tiers, cleanup, return_textgrid", "src/aligned_textgrid/sequences/tiers.py: SequenceTier.cleanup, TierGroup.cleanup"]}
{"id": "C66", "title": "Relating tiers whose boundaries do not match", "statement": "Making a tier group of two tiers whose intervals follow each other but whose boundaries do not match succeeds. The children of every upper interval are the lower intervals that overlap it most, in order. Every lower interval is cut to the part inside its parent, every upper interval to what its children cover, so that afterwards the children of each interval fill it exactly. Labels, other objects and the contents of the tiers stay as they are. With three tiers this fails: a mismatch between the lower two is repaired by cutting intervals of the middle tier, which then no longer fill those of the upper tier.", "quantifier": "every pair of tiers with any number of intervals, in which each lower interval overlaps an upper one and each upper one is the best for some lower one, and which either begin and end together or have a lower interval that crosses a boundary", "why_tests_cant": "all numbers of intervals and all patterns of mismatch, frame of all other objects", "anchors": ["src/aligned_textgrid/sequences/tiers.py: TierGroup.__init__", "src/aligned_textgrid/sequences/sequences.py: SequenceInterval.cleanup"]}
{"id": "C67", "title": "Appending a child to an interval", "statement": "interval.append(x) with an interval x of the subset class adds x to the children of the interval, sorted by start time, exactly once; every child then has the interval as super_instance and within, and fol/prev run along the children and end in boundaries. x keeps its times, label and own children. If x was a child of another interval it leaves it, and the remaining children there are linked up. An interval equal in times and label to a child is not added. An interval of another class raises ValueError and changes nothing. If the interval is in a tier of a tier group, x and its descendants are also added to the tiers below, once each and in order, and tiers above are unchanged. In a group it is not true that other intervals keep their neighbours: the whole tier below is linked as one row, across parents.", "quantifier": "every interval with any number of dated children and any new child; every group with any number of tiers and any depth of the new child's descendants", "why_tests_cant": "all numbers of children and positions, all depths of the hierarchy, frame of all other objects", "anchors": ["src/aligned_textgrid/sequences/sequences.py: SequenceInterval.append", "src/aligned_textgrid/sequences/sequences.py: SequenceInterval.subset_list", "src/aligned_textgrid/sequences/tiers.py: SequenceTier.append"]}
{"id": "C68", "title": "Filling the gaps between the children of an interval", "statement": "interval.cleanup() on an interval with children that follow each other inside it inserts, in every gap between two children and between the children and the two ends, exactly one new interval of the subset class with empty label and without children that fills the gap; gaps within the numerical tolerance are left. Afterwards the children reach from the start to the end of the interval, know their parent and their neighbours, and the old children keep times, labels and their own children; nothing else changes. If there is no gap nothing changes, so a second cleanup does nothing. An interval without children gets one interval of each class below it, with its times, each the only child of the one above. In a tier group, for an interval of the second lowest tier, the new intervals are also inserted into the lowest tier, each exactly once, and the entries of the other tiers stay. With overlapping children it is not true that the new intervals end after they start.", "quantifier": "every interval with any number of children and any pattern of gaps, outside tier groups or in the second lowest tier of a group; every class hierarchy of any depth for the interval without children", "why_tests_cant": "all numbers and placements of gaps, all depths, frame of all other objects", "anchors": ["src/aligned_textgrid/sequences/sequences.py: SequenceInterval.cleanup", "src/aligned_textgrid/sequences/sequences.py: SequenceInterval.append"]}
{"id": "C69", "title": "Relating two tiers where the lower one has gaps", "statement": "Making a TierGroup of two tiers such that the intervals of the lower tier lie, one after the other, inside those of the upper tier, with any gaps, gives each upper interval as children exactly the lower intervals inside it plus new intervals with empty label that fill the gaps: one between two neighbouring children wherever there is a gap, one before the first and one after the last child where the distance to the parent's end exceeds the tolerance and some parent is longer than its children, and one of the parent's length if nothing lies inside it. Existing intervals keep class, times and label; the upper tier, other tiers and other groups do not change. The lower tier gets exactly the new intervals that start or end with their parent; it is not true that it contains all children: intervals made between two children are in no tier.", "quantifier": "every two tiers of any length with any blocks (also empty ones) and any placement of gaps, every tolerance, every order in which the tiers are given", "why_tests_cant": "all numbers and placements of gaps and empty parents, all tolerances, frame of all other objects", "anchors": ["src/aligned_textgrid/sequences/tiers.py: TierGroup.__init__", "src/aligned_textgrid/sequences/sequences.py: SequenceInterval.cleanup", "src/aligned_textgrid/sequences/sequences.py: SequenceInterval.append"]}
{"id": "C70", "title": "Adding two intervals with +", "statement": "`word + phone`, where phone has no parent, returns a new object with the times, label, class, parent, neighbours and tier of word and with phone as its only child; phone's super_instance is the returned object (not the object word), word sees the same attributes as the returned object, every child that word had before has no parent afterwards, and no other interval, tier, group, grid or class changes. It is not true that former children are kept, so two sums in a row leave the second phone alone. `phone + word`, where phone has no parent, returns a new object with the attributes of phone that is added to word's children at its place, the others being kept and linked. If neither class is next to the other, ValueError is raised and no existing object changes.", "quantifier": "every state, every left operand with any number of children of distinct values, every right operand, every hierarchy of classes", "why_tests_cant": "any number and order of children, a shared attribute dictionary seen through two objects while a list is changed under iteration, frame over all other objects", "anchors": ["src/aligned_textgrid/sequences/sequences.py: InstanceMixins.__add__", "src/aligned_textgrid/sequences/sequences.py: SequenceInterval.subset_list (setter)", "src/aligned_textgrid/sequences/sequences.py: InstanceMixins.set_subset_list, remove_superset"]}
{"id": "C71", "title": "Popping an interval from a tier", "statement": "tier.pop(x), where x is an entry and no other entry has x's times and label, takes x and nothing else out of the tier; if x had a parent, x is taken out of the parent's children, those left are linked to each other, and x has no parent; x keeps its class, times, label, children and its own links; no other interval, tier, group or grid changes. If the tier's superset class is Top, the entries left are linked to each other again and the popped interval is unchanged. For a tier with another superset class (every tier of a text grid) and entries without parents that is not true: the neighbours still point at the popped interval; and no popped interval forgets its tier. Popping an interval that is not in the tier but has the times and the label of an entry takes that entry out of the tier and changes no interval, so its parent keeps it. Popping anything else raises and changes nothing.", "quantifier": "every tier of any length, in a group or not, every position, every family of the popped interval", "why_tests_cant": "any number of entries and siblings, any position, frame over all other objects", "anchors": ["src/aligned_textgrid/sequences/tiers.py: SequenceTier.pop", "src/aligned_textgrid/sequence_list.py: SequenceList.remove", "src/aligned_textgrid/sequences/sequences.py: InstanceMixins.remove_superset"]}
{"id": "C72", "title": "Any number of changes to the hierarchy of a grid", "statement": "Take a grid whose groups are in good order, each with a tier of every class of the hierarchy (other groups of other classes may stand beside them). Any sequence of interleave_class and pop_class calls, in which every interleaved name is new and put next to a class that is there then with a tier to copy from, and every popped class is there then and is not the only one, succeeds. Afterwards the names, classes, times and labels of the tiers of every group are those the changes give when made one by one to what was shown before; the groups keep their order and names; the hierarchy and all relations within the groups are again in good order; no interval or point that existed before has another class, time or label; no other grid changes; what is written is exactly the changed tiers. Popping a class just interleaved restores the grid as shown and as written. Interleaving a class just popped does not. A grid that was read from a text grid all groups of which have the same hierarchy is such a grid, so reading, changing and writing gives exactly the tiers the changes give when made to the tiers that were read.", "quantifier": "every grid of any number of groups, classes and intervals, every sequence of changes of any length", "why_tests_cant": "any number of changes in any order, each meeting the result of all the earlier ones", "anchors": ["src/aligned_textgrid/aligned_textgrid.py: AlignedTextGrid.interleave_class", "src/aligned_textgrid/aligned_textgrid.py: AlignedTextGrid.pop_class", "src/aligned_textgrid/aligned_textgrid.py: AlignedTextGrid.return_textgrid"]}
{"id": "C73", "title": "Tiers as attributes of a group", "statement": "Whenever a group is made or its tiers are related again (a new group, group.append, an append to one of its tiers that is carried out, grid.append), every tier of the group is the attribute of the group named after the tier's class if these names all differ; no other attribute of the group and no attribute of another group changes; if two names are the same no attribute is set. After a text grid has been read, every group of the grid gives access to its tiers in this way, and it stays so through cleanup, interleave_class and pop_class: the groups of the grid, replaced or kept, and all other groups give access to exactly the tiers they list. Giving these attributes changes nothing else, so all other properties hold alongside. Not so: two point tiers of the same class cannot be reached by its name; a group that interleave_class has replaced lists the new tier but lacks the attribute.", "quantifier": "every group, tier, text grid and grid of any size, any classes and any attributes given before", "why_tests_cant": "any number of groups and tiers, any classes and any earlier attributes, through every operation that runs a group's constructor", "anchors": ["src/aligned_textgrid/mixins/tiermixins.py: TierGroupMixins._set_tier_names", "src/aligned_textgrid/sequences/tiers.py: TierGroup.__init__", "src/aligned_textgrid/points/tiers.py: PointsGroup.__init__", "src/aligned_textgrid/aligned_textgrid.py: AlignedTextGrid.pop_class", "src/aligned_textgrid/aligned_textgrid.py: AlignedTextGrid.interleave_class"]}
{"id": "C74", "title": "Fusing intervals of a grid", "statement": "In a grid whose groups are in good order (as after reading, cleanup, interleave_class and pop_class), fuse_rightwards and fuse_leftwards of intervals of the lowest tier of a group work through the whole structure: two intervals next to each other and inside one interval of the tier above become one that spans both and has the joined label, in the tier, among the children of the interval above and in what is written; the other one is in no tier and has no parent; no other time, label, tier or group changes; the group is in good order again, so any number of fusions, anywhere in the grid, can follow, and also changes of the hierarchy. A text grid that is read, fused and written gives what the fusions, made to the tiers as they were read, give. An interval that ends (starts) with the interval above it is not fused rightwards (leftwards): an exception is raised and nothing changes.", "quantifier": "every grid in good order of any size and hierarchy, every text grid that can be read, any list of fusions, any function for the labels that does not return \"#\"", "why_tests_cant": "any number of groups, tiers and intervals, any sequence of fusions in any order and any label function", "anchors": ["src/aligned_textgrid/sequences/sequences.py: SequenceInterval.fuse_rightwards", "src/aligned_textgrid/sequences/sequences.py: SequenceInterval.fuse_leftwards", "src/aligned_textgrid/sequences/sequences.py: SequenceInterval.pop", "src/aligned_textgrid/aligned_textgrid.py: AlignedTextGrid.return_textgrid"]}
{"id": "C75", "title": "Cleanup levels the groups of a grid", "statement": "If the interval groups of a grid do not start and end together, cleanup() gives every tier of every group that starts later than the first of them exactly one new interval, of the tier's class and without label, parent or children, from that first start to the group's own start, placed before all others; and every tier one from the end of its group to the last end, placed after all others, unless the end of the group is near the latest start of all groups. No class, time, label, parent or child of an interval that existed changes, nor any tier but for its entries, nor any group. Afterwards all groups start together (up to the tolerance) and, with that exception, end together. The second interval is also added, with length zero, to the groups that last longest.", "quantifier": "every grid with any number of interval groups in good order and without gaps, of any hierarchy and extent, that do not all start and end together", "why_tests_cant": "any number of groups, tiers and intervals and any extents; the place of each new interval depends on re-sorting each tier by start time", "anchors": ["src/aligned_textgrid/aligned_textgrid.py: AlignedTextGrid.cleanup", "src/aligned_textgrid/sequences/tiers.py: SequenceTier.append", "src/aligned_textgrid/sequences/tiers.py: TierGroup.xmin", "src/aligned_textgrid/sequences/tiers.py: TierGroup.xmax"]}
{"id": "C76", "title": "Reading speakers of different extent", "statement": "Reading a text grid whose rows (one list of classes for each speaker) are each complete and without gaps but do not all start and end together gives one group for each row, its tiers in the order of the hierarchy and with their names; each tier has exactly the intervals of its row, in order, with one interval with the empty label added before them from the first start of all rows to the row's own (unless that is near), and one after them from the row's end to the last end of all rows (unless the row's end is near the last start of all rows). The classes are copies, and no object that existed before changes. Writing the grid gives exactly these tiers with these names if the names differ. Consequently every tier of a row that lasts longest is written with a final interval of no duration, unless the last end is near the last start.", "quantifier": "every text grid with any number of rows of any extent, any hierarchy for each row in any order, any number of intervals and any further tiers beyond the last class", "why_tests_cant": "any number of rows, tiers and intervals and all orders of the extents; which interval is added to which tier depends on the extents of all other rows", "anchors": ["src/aligned_textgrid/aligned_textgrid.py: AlignedTextGrid.__init__", "src/aligned_textgrid/aligned_textgrid.py: AlignedTextGrid.cleanup", "src/aligned_textgrid/aligned_textgrid.py: AlignedTextGrid.return_textgrid"]}
{"id": "C77", "title": "Speakers with gaps and of different extent", "statement": "Cleaning up a grid whose groups are in good order but do not start and end together does two things in turn: it fills the gaps of each group that has one beyond the tolerance (as C64), and then gives every tier of every group one blank interval from the first start of all groups to the group's own (unless that is near) and one from the group's end to the last end of all groups (unless the group's end is near the last start of all groups). No interval or point that existed changes in time, label, parent or children, and nothing outside these groups changes. All groups then start at the first start, or near it, and end at the last end, or where they ended if that is near the last start. Reading a text grid whose rows nest, each with or without gaps and each of its own extent, gives one group for each row, and each tier has exactly the intervals of its row with the gaps filled, if any tier of the row has one beyond the tolerance, and so widened; writing it gives exactly these tiers and names if the names differ.", "quantifier": "every grid of any number of interval groups in good order, every text grid with any number of nesting rows of any extent, with or without gaps, rows with gaps starting after 0", "why_tests_cant": "any number of groups, tiers and intervals, any gaps and all orders of the extents; which intervals are added to a tier depends on the gaps of the other tiers of its row and on the extents of all other rows", "anchors": ["src/aligned_textgrid/aligned_textgrid.py: AlignedTextGrid.__init__", "src/aligned_textgrid/aligned_textgrid.py: AlignedTextGrid.cleanup", "src/aligned_textgrid/sequences/tiers.py: TierGroup.cleanup", "src/aligned_textgrid/sequences/tiers.py: SequenceTier.cleanup", "src/aligned_textgrid/aligned_textgrid.py: AlignedTextGrid.return_textgrid"]}
{"id": "C78", "title": "Points beside speakers of different extent", "statement": "Cleaning up a grid whose groups of intervals are in good order but do not start and end together, and which has any number of groups of points among them, succeeds if and only if, for every group of points, its reported xmin is within the tolerance of the first start of the interval groups and its reported xmax is within the tolerance of their last start. If so, the interval groups have their gaps filled and are levelled as if there were no points (C77), whatever the order of the groups, and the groups of points are left as they were; the interval groups then start and end together as in C77. If not, cleanup raises ValueError.", "quantifier": "every grid of any number of interval groups in good order and any number of non-empty groups of points, in any order", "why_tests_cant": "any number and order of groups of both kinds; whether there is an error depends on the points' times against the extents of all interval groups, which change while the groups are gone through", "anchors": ["src/aligned_textgrid/aligned_textgrid.py: AlignedTextGrid.cleanup", "src/aligned_textgrid/points/tiers.py: PointsGroup.xmin", "src/aligned_textgrid/points/tiers.py: PointsGroup.xmax", "src/aligned_textgrid/points/points.py: SequencePoint.__init__"]}
{"id": "C79", "title": "Reading points beside speakers of different extent", "statement": "Reading a text grid whose rows are in good order (the interval tiers of a row, if any, nest; the other tiers are non-empty point tiers), with or without gaps, but whose interval rows do not start and end together, succeeds if and only if in every row with point tiers the first point of all is within the tolerance of the start of the first speaker, and the latest of the first points of its tiers is within the tolerance of the latest start of all speakers. If so, the grid has, row by row, one group for the interval tiers, each tier having exactly the intervals of the row with gaps filled and widened as in C77, and one group for the point tiers, each having exactly the row's points in order of time; classes are copies and nothing that existed changes; and return_textgrid() then gives, row by row, the interval tiers so widened in the order of their classes and then the point tiers, under the names they were read with if these are all different. If not, ValueError is raised: so a text grid with a second speaker who is silent at the start, or at the end, and with a tier of points cannot in general be read.", "quantifier": "every text grid of any number of rows of interval and point tiers in good order, of any extents, with or without gaps, rows with gaps starting after 0", "why_tests_cant": "any number of rows and tiers and all combinations of extents, gaps and point times; the outcome depends on all rows together", "anchors": ["src/aligned_textgrid/aligned_textgrid.py: AlignedTextGrid.__init__", "src/aligned_textgrid/aligned_textgrid.py: AlignedTextGrid.cleanup", "src/aligned_textgrid/points/tiers.py: PointsGroup.xmin", "src/aligned_textgrid/points/tiers.py: PointsGroup.xmax", "src/aligned_textgrid/points/tiers.py: SequencePointTier"]}
{"id": "C80", "title": "Printed descriptions tell objects apart", "statement": "repr() of a TierGroup or PointsGroup is the same for two groups if and only if they are of the same kind and their tiers have entry classes of the same names in the same order; of two AlignedTextGrids, if and only if their groups have the same names and the same class names in the same order, whatever quotes, commas, brackets or backslashes the names have; of two SequenceTiers, if and only if the entry classes, superset classes and subset classes have the same names. repr() of an interval whose labels have no comma identifies its class, its label, whether it has a super_instance and that one's label, and the list of labels of its subset_list; with commas in labels it does not (refuted). repr() of a point whose label has no semicolon identifies its class, its label and its tier_index. Printing a SequenceTier whose entry class has no superset or subset class raises AttributeError. grid.tier_names gives, group by group and tier by tier, the names of the tiers; it raises ValueError on a grid without groups and AttributeError if there is any group of points.", "quantifier": "all groups, grids, tiers and intervals with any names and labels; intervals as C15 leaves them (listed by their super_instance)", "why_tests_cant": "that no two different objects print the same ranges over all pairs of objects and all names", "anchors": ["src/aligned_textgrid/aligned_textgrid.py: AlignedTextGrid.__repr__", "src/aligned_textgrid/aligned_textgrid.py: AlignedTextGrid.tier_names", "src/aligned_textgrid/sequences/tiers.py: TierGroup.__repr__", "src/aligned_textgrid/sequences/tiers.py: SequenceTier.__repr__", "src/aligned_textgrid/sequences/tiers.py: TierGroup.tier_names", "src/aligned_textgrid/points/tiers.py: PointsGroup.__repr__", "src/aligned_textgrid/sequences/sequences.py: SequenceInterval.__repr__", "src/aligned_textgrid/points/points.py: SequencePoint.__repr__"]}
{"id": "C81", "title": "Slices give what lies between two places, and looping over a slice is safe", "statement": "tier[a:b] of a SequenceTier or SequencePointTier, and interval[a:b], is the list of the entries between the places a and b, in order: a negative bound counts from the end, a bound out of range means the nearest end, and if b is not after a the slice is empty; nothing is changed. tier[:k] followed by tier[k:] is the whole tier for every integer k, and on an ordered tier nothing in the first starts later than anything in the second. Slicing a group or a grid raises TypeError. `for y in x[a:b]: x.pop(y)` removes exactly what the slice has: the rest of the subset_list stays in order with its fol and prev links, the removed ones have no super_instance, and no times, labels or other families change; with x[:] the subset_list is empty afterwards (whereas `for y in x: x.pop(y)` leaves every other one, C57).", "quantifier": "all tiers, intervals and integer bounds, present or left out; for popping, all states reached by any sequence of the calls of C15", "why_tests_cant": "ranges over all bounds, negative and out of range, and all families reached by any edits", "anchors": ["src/aligned_textgrid/sequences/tiers.py: SequenceTier.__getitem__", "src/aligned_textgrid/points/tiers.py: SequencePointTier.__getitem__", "src/aligned_textgrid/sequences/sequences.py: SequenceInterval.__getitem__", "src/aligned_textgrid/sequence_list.py: SequenceList.__getitem__", "src/aligned_textgrid/sequences/tiers.py: TierGroup.__getitem__", "src/aligned_textgrid/aligned_textgrid.py: AlignedTextGrid.__getitem__"]}
{"id": "C82", "title": "Sums with a subset_list leave nothing behind but an entry class", "statement": "For an interval x and a list l of intervals of one class with times: if x.subset_list already has that class as its entry_class, x.subset_list + l changes no object. If x.subset_list is empty and new, the sum gives exactly the elements of l in order of start, and the only thing changed is that x.subset_list now has the class of l as its entry_class, although it is still empty. Hence, for two lists of unrelated classes, either sum works, but the other one raises ValueError afterwards; and after such a sum with intervals of a class unrelated to the subset class of x (a word's subset_list plus words), x.append_subset_list of a proper child that has no parent raises ValueError and changes nothing, though it is accepted without the sum.", "quantifier": "all states, intervals and lists with times", "why_tests_cant": "that nothing else changes ranges over all objects, and the refusals over all pairs of unrelated classes", "anchors": ["src/aligned_textgrid/sequence_list.py: SequenceList.__add__", "src/aligned_textgrid/sequence_list.py: SequenceList.append", "src/aligned_textgrid/sequences/sequences.py: InstanceMixins.append_subset_list", "src/aligned_textgrid/sequences/sequences.py: SequenceInterval.subset_list"]}
{"id": "C83", "title": "Assigning a subset_list sets within, appending to it does not", "statement": "After parent.subset_list = l every element of l has super_instance parent and is within parent. After parent.append_subset_list(x) for an x that was not a child of parent, x has super_instance parent, but x.within is what it was before if x had no super_instance, and None if x had one; in particular the id of such an x that was within nothing, or that was moved from another parent, is the empty string, although it has a parent. No other interval's within changes.", "quantifier": "all states reached by any sequence of the calls of C15, all parents, children and lists that the calls allow", "why_tests_cant": "ranges over all reachable families; that no other within changes ranges over all objects", "anchors": ["src/aligned_textgrid/sequences/sequences.py: InstanceMixins.append_subset_list", "src/aligned_textgrid/sequences/sequences.py: InstanceMixins.set_subset_list", "src/aligned_textgrid/sequences/sequences.py: SequenceInterval.subset_list", "src/aligned_textgrid/mixins/within.py: WithinMixins.contains", "src/aligned_textgrid/mixins/within.py: WithinMixins.id"]}
