{
 "claims": [
  {
   "property": "C01",
   "status": "proved",
   "theorems": [
    "C01_init",
    "C01_mixed",
    "C01_frame"
   ],
   "note": ""
  },
  {
   "property": "C02",
   "status": "proved",
   "theorems": [
    "C02_add",
    "C02_add_cast",
    "C02_mixed",
    "C02_unrelated"
   ],
   "note": ""
  },
  {
   "property": "C03",
   "status": "proved",
   "theorems": [
    "C03_append",
    "C03_present",
    "C03_unrelated",
    "C03_zero_start_refuted"
   ],
   "note": "times must be known and non-zero; C03_zero_start_refuted shows the order is lost with a start at 0"
  },
  {
   "property": "C04",
   "status": "proved",
   "theorems": [
    "C04_remove",
    "C04_found",
    "C04_absent"
   ],
   "note": ""
  },
  {
   "property": "C05",
   "status": "proved",
   "theorems": [
    "C05_concat",
    "C05_empty_refuted"
   ],
   "note": "exact addition; C05_empty_refuted shows the failure for an empty second list"
  },
  {
   "property": "C06",
   "status": "proved",
   "theorems": [
    "C06_exact",
    "C06_zero_length_refuted"
   ],
   "note": "positive durations; C06_zero_length_refuted shows the miscount otherwise"
  },
  {
   "property": "C07",
   "status": "proved",
   "theorems": [
    "C07_fol",
    "C07_prev",
    "C07_settled",
    "C07_self",
    "C07_class",
    "C07_settled_refuted"
   ],
   "note": "C07_settled_refuted shows that a repeated call can leave the other side out of date"
  },
  {
   "property": "C08",
   "status": "proved",
   "theorems": [
    "C08_children",
    "C08_tier",
    "C08_points"
   ],
   "note": "children, tiers (assigning sequence_list) and point tiers"
  },
  {
   "property": "C09",
   "status": "proved",
   "theorems": [
    "C09_children",
    "C09_tier"
   ],
   "note": "children and tiers"
  },
  {
   "property": "C10",
   "status": "proved",
   "theorems": [
    "C10_superset",
    "C10_subset",
    "C10_refused",
    "C10_ends"
   ],
   "note": ""
  },
  {
   "property": "C11",
   "status": "proved",
   "theorems": [
    "C11_chain",
    "C11_one",
    "C11_empty",
    "C11_duplicates_refuted",
    "C11_name_refuted"
   ],
   "note": ""
  },
  {
   "property": "C12",
   "status": "proved",
   "theorems": [
    "C12_positions",
    "C12_names",
    "C12_cycle_refuted"
   ],
   "note": ""
  },
  {
   "property": "C13",
   "status": "proved",
   "theorems": [
    "C13_clone",
    "C13_not_top",
    "C13_point"
   ],
   "note": ""
  },
  {
   "property": "C14",
   "status": "proved",
   "theorems": [
    "C14_chain",
    "C14_default_refuted"
   ],
   "note": ""
  },
  {
   "property": "C15",
   "status": "proved",
   "theorems": [
    "C15_families",
    "C15_sorted",
    "C15_join",
    "C15_adopt",
    "C15_wrong_class",
    "C15_second_parent_refuted",
    "C15_twin_refuted",
    "C15_hash_refuted"
   ],
   "note": "C15_second_parent_refuted, C15_twin_refuted and C15_hash_refuted show why the history excludes a second parent, equal-valued siblings and the label #"
  },
  {
   "property": "C16",
   "status": "proved",
   "theorems": [
    "C16_removal",
    "C16_links_refuted"
   ],
   "note": "C16_links_refuted: the removed child keeps its own fol and prev"
  },
  {
   "property": "C17",
   "status": "proved",
   "theorems": [
    "C17_assign",
    "C17_stale_refuted",
    "C17_live_refuted"
   ],
   "note": "C17_stale_refuted and C17_live_refuted: set_subset_list without the setter leaves stale parents"
  },
  {
   "property": "C18",
   "status": "proved",
   "theorems": [
    "C18_built",
    "C18_wrong_kind"
   ],
   "note": ""
  },
  {
   "property": "C19",
   "status": "proved",
   "theorems": [
    "C19_found",
    "C19_many"
   ],
   "note": ""
  },
  {
   "property": "C20",
   "status": "proved",
   "theorems": [
    "C20_tier",
    "C20_group",
    "C20_empty_tier",
    "C20_grid"
   ],
   "note": ""
  },
  {
   "property": "C21",
   "status": "proved",
   "theorems": [
    "C21_starts",
    "C21_ends",
    "C21_length"
   ],
   "note": ""
  },
  {
   "property": "C22",
   "status": "proved",
   "theorems": [
    "C22_tier",
    "C22_group",
    "C22_grid",
    "C22_undo",
    "C22_order"
   ],
   "note": ""
  },
  {
   "property": "C23",
   "status": "proved",
   "theorems": [
    "C23_arranged"
   ],
   "note": ""
  },
  {
   "property": "C24",
   "status": "proved",
   "theorems": [
    "C24_best",
    "C24_inside",
    "C24_parent"
   ],
   "note": ""
  },
  {
   "property": "C25",
   "status": "proved",
   "theorems": [
    "C25_blocks",
    "C25_children"
   ],
   "note": ""
  },
  {
   "property": "C26",
   "status": "proved",
   "theorems": [
    "C26_related"
   ],
   "note": ""
  },
  {
   "property": "C27",
   "status": "proved",
   "theorems": [
    "C27_lookup"
   ],
   "note": ""
  },
  {
   "property": "C28",
   "status": "proved",
   "theorems": [
    "C28_path",
    "C28_total",
    "C28_unique",
    "C28_ids"
   ],
   "note": ""
  },
  {
   "property": "C29",
   "status": "proved",
   "theorems": [
    "C29_filled",
    "C29_nothing",
    "C29_zero_refuted"
   ],
   "note": ""
  },
  {
   "property": "C30",
   "status": "proved",
   "theorems": [
    "C30_validate"
   ],
   "note": ""
  },
  {
   "property": "C31",
   "status": "proved",
   "theorems": [
    "C31_fused",
    "C31_top",
    "C31_top_refuted",
    "C31_loose",
    "C31_loose_refuted",
    "C31_boundary",
    "C31_alone",
    "C31_reached"
   ],
   "note": ""
  },
  {
   "property": "C32",
   "status": "proved",
   "theorems": [
    "C32_nearest",
    "C32_empty"
   ],
   "note": ""
  },
  {
   "property": "C33",
   "status": "proved",
   "theorems": [
    "C33_built",
    "C33_copy_refuted"
   ],
   "note": "C33_copy_refuted: SequencePointTier(tier) reads the stale entry list of the other tier"
  },
  {
   "property": "C34",
   "status": "proved",
   "theorems": [
    "C34_distance",
    "C34_boundary",
    "C34_zero",
    "C34_from"
   ],
   "note": ""
  },
  {
   "property": "C35",
   "status": "proved",
   "theorems": [
    "C35_points_xmax"
   ],
   "note": ""
  },
  {
   "property": "C36",
   "status": "proved",
   "theorems": [
    "C36_names",
    "C36_entries",
    "C36_collision_refuted"
   ],
   "note": ""
  },
  {
   "property": "C37",
   "status": "proved",
   "theorems": [
    "C37_nested",
    "C37_too_few",
    "C37_flat",
    "C37_short",
    "C37_chains"
   ],
   "note": ""
  },
  {
   "property": "C38",
   "status": "proved",
   "theorems": [
    "C38_untouched",
    "C38_read",
    "C38_apart_read",
    "C38_append",
    "C38_apart_append",
    "C38_tier"
   ],
   "note": ""
  },
  {
   "property": "C39",
   "status": "proved",
   "theorems": [
    "C39_lookup"
   ],
   "note": ""
  },
  {
   "property": "C40",
   "status": "proved",
   "theorems": [
    "C40_rows",
    "C40_group",
    "C40_flat",
    "C40_flat_grid",
    "C40_empty"
   ],
   "note": ""
  },
  {
   "property": "C41",
   "status": "proved",
   "theorems": [
    "C41_tierwise",
    "C41_self"
   ],
   "note": ""
  },
  {
   "property": "C42",
   "status": "proved",
   "theorems": [
    "C42_pop",
    "C42_insert"
   ],
   "note": ""
  },
  {
   "property": "C43",
   "status": "proved",
   "theorems": [
    "C43_index",
    "C43_interval",
    "C43_none",
    "C43_many"
   ],
   "note": ""
  },
  {
   "property": "C44",
   "status": "proved",
   "theorems": [
    "C44_group",
    "C44_grid",
    "C44_empty_points"
   ],
   "note": ""
  },
  {
   "property": "C45",
   "status": "proved",
   "theorems": [
    "C45_paired",
    "C45_mutual",
    "C45_twins_refuted",
    "C45_ranges",
    "C45_outside"
   ],
   "note": ""
  },
  {
   "property": "C46",
   "status": "proved",
   "theorems": [
    "C46_certainty",
    "C46_status",
    "C46_override",
    "C46_range",
    "C46_range_single",
    "C46_level",
    "C46_band"
   ],
   "note": ""
  },
  {
   "property": "C47",
   "status": "proved",
   "theorems": [
    "C47_append",
    "C47_listed",
    "C47_first",
    "C47_first_refuted",
    "C47_unrelated",
    "C47_point",
    "C47_point_refuted"
   ],
   "note": ""
  },
  {
   "property": "C48",
   "status": "proved",
   "theorems": [
    "C48_add",
    "C48_mixed",
    "C48_concat"
   ],
   "note": ""
  },
  {
   "property": "C49",
   "status": "proved",
   "theorems": [
    "C49_new",
    "C49_again",
    "C49_stable"
   ],
   "note": ""
  },
  {
   "property": "C50",
   "status": "proved",
   "theorems": [
    "C50_append",
    "C50_there",
    "C50_childless_refuted",
    "C50_twin_refuted"
   ],
   "note": ""
  },
  {
   "property": "C51",
   "status": "proved",
   "theorems": [
    "C51_pop",
    "C51_absent",
    "C51_only_refuted",
    "C51_stale_refuted"
   ],
   "note": ""
  },
  {
   "property": "C52",
   "status": "proved",
   "theorems": [
    "C52_weave",
    "C52_absent",
    "C52_empty_refuted",
    "C52_failure_refuted"
   ],
   "note": ""
  },
  {
   "property": "C53",
   "status": "proved",
   "theorems": [
    "C53_nested",
    "C53_flat",
    "C53_chains",
    "C53_points_refuted",
    "C53_names_refuted"
   ],
   "note": ""
  },
  {
   "property": "C54",
   "status": "proved",
   "theorems": [
    "C54_written",
    "C54_round"
   ],
   "note": ""
  },
  {
   "property": "C55",
   "status": "proved",
   "theorems": [
    "C55_concat",
    "C55_classes",
    "C55_points",
    "C55_classes_refuted"
   ],
   "note": ""
  },
  {
   "property": "C56",
   "status": "proved",
   "theorems": [
    "C56_add",
    "C56_classes",
    "C56_originals_refuted"
   ],
   "note": ""
  },
  {
   "property": "C57",
   "status": "proved",
   "theorems": [
    "C57_loop",
    "C57_below",
    "C57_nested",
    "C57_pop"
   ],
   "note": ""
  },
  {
   "property": "C58",
   "status": "proved",
   "theorems": [
    "C58_numbers",
    "C58_at_time",
    "C58_gap",
    "C58_sizes"
   ],
   "note": ""
  },
  {
   "property": "C59",
   "status": "proved",
   "theorems": [
    "C59_append",
    "C59_read",
    "C59_pop",
    "C59_weave"
   ],
   "note": ""
  },
  {
   "property": "C60",
   "status": "proved",
   "theorems": [
    "C60_append",
    "C60_mixed_refuted",
    "C60_missing_refuted",
    "C60_names_refuted"
   ],
   "note": ""
  },
  {
   "property": "C61",
   "status": "proved",
   "theorems": [
    "C61_build"
   ],
   "note": ""
  },
  {
   "property": "C62",
   "status": "proved",
   "theorems": [
    "C62_append",
    "C62_name_refuted",
    "C62_kind",
    "C62_taken",
    "C62_misfit",
    "C62_points",
    "C62_grid",
    "C62_unknown"
   ],
   "note": "C62_name_refuted: the group's own name is lost"
  },
  {
   "property": "C63",
   "status": "proved",
   "theorems": [
    "C63_filled",
    "C63_nothing",
    "C63_twice",
    "C63_zero_refuted",
    "C63_links_refuted"
   ],
   "note": "C63_zero_refuted: an interval that starts at 0 spoils the order; C63_links_refuted: the new intervals in the first tier are not linked"
  },
  {
   "property": "C64",
   "status": "proved",
   "theorems": [
    "C64_tidied",
    "C64_ends_refuted",
    "C64_points_refuted"
   ],
   "note": "C64_ends_refuted: groups that do not end together; C64_points_refuted: with a points group as well there is an error"
  },
  {
   "property": "C65",
   "status": "proved",
   "theorems": [
    "C65_plugged",
    "C65_nested",
    "C65_flat",
    "C65_chains",
    "C65_round",
    "C65_zero_refuted"
   ],
   "note": "C65_zero_refuted: a text grid that begins at 0"
  },
  {
   "property": "C66",
   "status": "proved",
   "theorems": [
    "C66_snapped",
    "C66_three_refuted"
   ],
   "note": "C66_three_refuted: three tiers"
  },
  {
   "property": "C67",
   "status": "proved",
   "theorems": [
    "C67_append",
    "C67_moved",
    "C67_twin",
    "C67_refused",
    "C67_grouped",
    "C67_across_refuted"
   ],
   "note": "C67_across_refuted: neighbours across parents in a group"
  },
  {
   "property": "C68",
   "status": "proved",
   "theorems": [
    "C68_fill",
    "C68_again",
    "C68_down",
    "C68_grouped",
    "C68_overlap_refuted"
   ],
   "note": "C68_overlap_refuted: overlapping children"
  },
  {
   "property": "C69",
   "status": "proved",
   "theorems": [
    "C69_ragged",
    "C69_listed",
    "C69_phantom_refuted"
   ],
   "note": "C69_phantom_refuted: intervals made between two children are in no tier"
  },
  {
   "property": "C70",
   "status": "proved",
   "theorems": [
    "C70_child",
    "C70_kept_refuted",
    "C70_both_refuted",
    "C70_under",
    "C70_refused"
   ],
   "note": "C70_kept_refuted, C70_both_refuted: the children that the left operand had are lost"
  },
  {
   "property": "C71",
   "status": "proved",
   "theorems": [
    "C71_pop",
    "C71_top",
    "C71_links_refuted",
    "C71_tier_refuted",
    "C71_twin",
    "C71_absent"
   ],
   "note": "C71_links_refuted: in a text grid the neighbours of a popped word still point at it; C71_tier_refuted: a popped interval keeps its intier"
  },
  {
   "property": "C72",
   "status": "proved",
   "theorems": [
    "C72_edits",
    "C72_written",
    "C72_undo",
    "C72_read",
    "C72_trip",
    "C72_redo_refuted"
   ],
   "note": "C72_redo_refuted: a popped class cannot be interleaved back"
  },
  {
   "property": "C73",
   "status": "proved",
   "theorems": [
    "C73_group",
    "C73_points",
    "C73_relate",
    "C73_add",
    "C73_append",
    "C73_grid",
    "C73_cleanup",
    "C73_tidy",
    "C73_read",
    "C73_weave",
    "C73_pop",
    "C73_repeated_refuted",
    "C73_replaced_refuted"
   ],
   "note": "C73_repeated_refuted and C73_replaced_refuted: where tiers have no accessor"
  },
  {
   "property": "C74",
   "status": "proved",
   "theorems": [
    "C74_fused",
    "C74_edge",
    "C74_run",
    "C74_written",
    "C74_read",
    "C74_trip"
   ],
   "note": "for the lowest tier of groups with two or more tiers; families in higher tiers are C31"
  },
  {
   "property": "C75",
   "status": "proved",
   "theorems": [
    "C75_levelled",
    "C75_ends"
   ],
   "note": "for grids without gaps and without groups of points; gaps are C64, and C64_points_refuted shows that a group of points makes cleanup raise"
  },
  {
   "property": "C76",
   "status": "proved",
   "theorems": [
    "C76_read",
    "C76_round",
    "C76_degenerate"
   ],
   "note": "for rows of intervals without gaps; rows with gaps are C77"
  },
  {
   "property": "C77",
   "status": "proved",
   "theorems": [
    "C77_levelled",
    "C77_ends",
    "C77_read",
    "C77_round"
   ],
   "note": "for rows of intervals; with a group of points and groups of different extent there is an error (C64_points_refuted)"
  },
  {
   "property": "C78",
   "status": "proved",
   "theorems": [
    "C78_levelled",
    "C78_ends",
    "C78_error"
   ],
   "note": "both outcomes for all such grids; replaces the single witness C64_points_refuted"
  },
  {
   "property": "C79",
   "status": "proved",
   "theorems": [
    "C79_read",
    "C79_beside",
    "C79_round"
   ],
   "note": "both outcomes; point tiers without points are left out"
  },
  {
   "property": "C80",
   "status": "proved",
   "theorems": [
    "C80_group",
    "C80_grid",
    "C80_tier",
    "C80_tier_error",
    "C80_interval",
    "C80_comma_refuted",
    "C80_point",
    "C80_names"
   ],
   "note": "repr of strings with characters that do not print is simplified"
  },
  {
   "property": "C81",
   "status": "proved",
   "theorems": [
    "C81_slice",
    "C81_split",
    "C81_pop",
    "C81_empty"
   ],
   "note": "slices have step 1 and integer bounds"
  },
  {
   "property": "C82",
   "status": "proved",
   "theorems": [
    "C82_free",
    "C82_noted",
    "C82_order",
    "C82_append"
   ],
   "note": ""
  },
  {
   "property": "C83",
   "status": "proved",
   "theorems": [
    "C83_assign",
    "C83_append"
   ],
   "note": ""
  }
 ]
}
