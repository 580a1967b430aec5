{
 "B1": {
  "note": "Clipping with min and max swapped yields the upper bound always, which is still inside the box: C08/C10 only claim the box and stay true; the formula theorems (C07, C20, C35 ...) fail.",
  "tightened": [
   "C15_tt_final_reward",
   "C19_tt_charges",
   "C44_tt_no_latch"
  ]
 },
 "B4": {
  "note": "rk4 is used for the projection's prediction only in this definition; C40 fails, C20 speaks of the stepped robot and stays true."
 },
 "B5": {
  "note": "At first C15 did not depend on the divisor; its final-reward theorems were tightened and the edit tried again.",
  "tightened": [
   "C15_tt_final_reward"
  ]
 },
 "T13": {
  "note": "C09 (values finite and in range) is still true of the edited program; C07 fails."
 },
 "R1": {
  "note": "C09 is still true of the edited program; C07 fails."
 },
 "T22": {
  "note": "C07 excludes the projection switch; C40 fails."
 },
 "L5": {
  "note": "C10 is still true of the edited program (the result stays in the box). C56 was added for the missing claim and now fails.",
  "tightened": [
   "C56_planner_is_model_based_diffusion"
  ]
 },
 "L8": {
  "note": "The first build still proved everything: theorems were added or tightened and the edit tried again.",
  "tightened": [
   "C56_planner_is_model_based_diffusion",
   "C56_result_shape"
  ]
 },
 "E7": {
  "note": "The first build still proved everything: theorems were added or tightened and the edit tried again.",
  "tightened": [
   "C57_parking_defaults"
  ]
 },
 "N5": {
  "note": "The first build still proved everything: theorems were added or tightened and the edit tried again.",
  "tightened": [
   "C33_trailer_arrays"
  ]
 },
 "N6": {
  "note": "The first build still proved everything: theorems were added or tightened and the edit tried again.",
  "tightened": [
   "C30_n_trailer_step",
   "C30_n_trailer_run"
  ]
 },
 "H3": {
  "note": "The first build proved everything; the cache key of the rollout was put into the model (rr_key) and C38 restated over it.",
  "tightened": [
   "C38_trials_without_clearing",
   "C38_guidance_switched_off"
  ]
 },
 "Y3": {
  "note": "The first build still proved everything: theorems were added or tightened and the edit tried again.",
  "tightened": [
   "C50_entries",
   "C51_report"
  ]
 },
 "HX14": {
  "note": "The first build still proved everything: theorems were added or tightened and the edit tried again.",
  "tightened": [
   "C27_plot_limits_kept"
  ]
 },
 "HX20": {
  "note": "The first build still proved everything: theorems were added or tightened and the edit tried again.",
  "tightened": [
   "C37_reference_reward_is_score"
  ]
 },
 "HX21": {
  "note": "The first build still proved everything: theorems were added or tightened and the edit tried again.",
  "tightened": [
   "C37_reference_reward_is_score"
  ]
 },
 "HX30": {
  "note": "The first build still proved everything: theorems were added or tightened and the edit tried again.",
  "tightened": [
   "C40_tt_constraint_pose",
   "C40_tt_predicted_pose_safe"
  ]
 },
 "HX35": {
  "note": "The first build still proved everything: theorems were added or tightened and the edit tried again.",
  "tightened": [
   "C46_video_complete"
  ]
 },
 "HX40": {
  "note": "The first build still proved everything: theorems were added or tightened and the edit tried again.",
  "tightened": [
   "C53_planner_settings"
  ]
 },
 "AZ29": {
  "note": "The first build still proved everything: theorems were added or tightened and the edit tried again.",
  "tightened": [
   "C16_tt_reward_formula",
   "C16_bk_reward_formula"
  ]
 },
 "AZ61": {
  "note": "The first build still proved everything: theorems were added or tightened and the edit tried again.",
  "tightened": [
   "C28_fences"
  ]
 },
 "AZ75": {
  "note": "The first build still proved everything: theorems were added or tightened and the edit tried again.",
  "tightened": [
   "C34_values_read"
  ]
 },
 "AZ105": {
  "note": "The first build still proved everything: theorems were added or tightened and the edit tried again.",
  "tightened": [
   "C42_nt_errors"
  ]
 },
 "AZ127": {
  "note": "The first build still proved everything: theorems were added or tightened and the edit tried again.",
  "tightened": [
   "C41_bk_pushed_away"
  ]
 },
 "AZ128": {
  "note": "The first build still proved everything: theorems were added or tightened and the edit tried again.",
  "tightened": [
   "C41_bk_pushed_away"
  ]
 },
 "AZ129": {
  "note": "The first build still proved everything: theorems were added or tightened and the edit tried again.",
  "tightened": [
   "C41_three_descents"
  ]
 },
 "AZ138": {
  "note": "The first build still proved everything: theorems were added or tightened and the edit tried again.",
  "tightened": [
   "C38_guidance_switched_off"
  ]
 },
 "AZ147": {
  "note": "The first build still proved everything: theorems were added or tightened and the edit tried again.",
  "tightened": [
   "C47_bk_wheels_partial"
  ]
 },
 "AZ173": {
  "note": "The first build still proved everything: theorems were added or tightened and the edit tried again.",
  "tightened": [
   "C52_derived_settings"
  ]
 },
 "AZ174": {
  "note": "The first build still proved everything: theorems were added or tightened and the edit tried again.",
  "tightened": [
   "C52_planner_settings"
  ]
 },
 "AZ175": {
  "note": "The first build still proved everything: theorems were added or tightened and the edit tried again.",
  "tightened": [
   "C52_sizes_grow"
  ]
 },
 "TH49": {
  "note": "The first build still proved everything: theorems were added or tightened and the edit tried again.",
  "tightened": [
   "C62_tight_targets_free"
  ]
 },
 "HX12": {
  "note": "The edit was filed under C29; it is caught by 18 theorems of other claims (the start is set, the goal is not)."
 },
 "HX23": {
  "note": "Filed under C36; the claims it actually breaks are C35 and C37, whose theorems fail."
 },
 "HX33": {
  "note": "Filed under C46; it breaks C47, whose theorems fail."
 },
 "HX34": {
  "note": "Filed under C46; it breaks C47, whose theorems fail."
 },
 "HX36": {
  "note": "Filed under C48; it breaks C46/C49, whose theorems fail."
 },
 "HX37": {
  "note": "Filed under C48; it breaks C46/C49, whose theorems fail."
 },
 "TH46": {
  "note": "Filed under C63 as well; only C60 is false of the edited program."
 },
 "AZ85": {
  "note": "Equivalent edit, no claim becomes false: the default of an indexing that is always in range."
 },
 "AZ95": {
  "note": "Equivalent edit, no claim becomes false: the default of an indexing that is always in range."
 },
 "AZ92": {
  "note": "Equivalent edit, no claim becomes false: the branch is unreachable."
 },
 "TH18": {
  "note": "Equivalent edit, no claim becomes false: both fields hold the same value in every scenario."
 },
 "TH40": {
  "note": "Equivalent edit, no claim becomes false: the assertion fails either way."
 },
 "TH48": {
  "note": "Equivalent edit, no claim becomes false: no key is ever set twice."
 },
 "V15": {
  "note": "Equivalent edit, no claim becomes false: the base value is always overridden by the search space."
 },
 "AZ15": {
  "note": "Equivalent edit, no claim becomes false: minimum of an empty list, never taken."
 },
 "AZ16": {
  "note": "Equivalent edit, no claim becomes false: maximum of an empty list, never taken."
 },
 "AZ137": {
  "note": "Equivalent edit, no claim becomes false: where fresh identities start counting."
 },
 "AZ144": {
  "note": "Equivalent edit, no claim becomes false: the acceleration robots' reward ignores the speeds."
 },
 "AZ177": {
  "note": "Equivalent edit, no claim becomes false: value read for a missing or ill-typed key; every configuration is complete."
 },
 "AZ178": {
  "note": "Equivalent edit, no claim becomes false: value read for a missing or ill-typed key; every configuration is complete."
 },
 "AZ179": {
  "note": "Equivalent edit, no claim becomes false: value read for a missing or ill-typed key; every configuration is complete."
 },
 "MX51": {
  "note": "The first build still proved everything: theorems were added or tightened and the edit tried again.",
  "tightened": [
   "C61_all_order"
  ]
 },
 "MX52": {
  "note": "The first build still proved everything: theorems were added or tightened and the edit tried again.",
  "tightened": [
   "C61_other_tests"
  ]
 },
 "MX6": {
  "note": "The first build still proved everything: theorems were added or tightened and the edit tried again.",
  "tightened": [
   "C47_wheel_size"
  ]
 },
 "MX14": {
  "note": "The first build still proved everything: theorems were added or tightened and the edit tried again.",
  "tightened": [
   "C49_merged_in_order"
  ]
 },
 "MX16": {
  "note": "The first build still proved everything: theorems were added or tightened and the edit tried again.",
  "tightened": [
   "C47_lines"
  ]
 },
 "MX21": {
  "note": "The first build still proved everything: theorems were added or tightened and the edit tried again.",
  "tightened": [
   "C38_nt_planned_from_current_start"
  ]
 },
 "TS3": {
  "note": "The first build still proved everything: theorems were added or tightened and the edit tried again.",
  "tightened": [
   "C72_failure_changes_no_file"
  ]
 }
}