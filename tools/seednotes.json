{
 "tightened": {
  "S16b": [
   "C80_asks_and_relays",
   "C85_get_object_info"
  ],
  "S17b": [
   "C80_asks_and_relays",
   "C85_get_object_info"
  ],
  "S18b": [
   "C80_asks_and_relays",
   "C85_get_object_info"
  ],
  "S20b": [
   "C80_asks_and_relays",
   "C85_get_object_info"
  ],
  "S21b": [
   "C80_asks_and_relays",
   "C85_get_object_info"
  ],
  "S31b": [
   "C80_asks_and_relays",
   "C85_get_object_info"
  ],
  "S33b": [
   "C80_asks_and_relays",
   "C85_get_object_info"
  ],
  "S34b": [
   "C80_asks_and_relays",
   "C85_get_object_info"
  ],
  "S35b": [
   "C80_asks_and_relays",
   "C85_get_object_info"
  ],
  "S42b": [
   "C80_asks_and_relays",
   "C85_get_object_info"
  ],
  "T54b": [
   "C81_rewritten"
  ],
  "S38": [
   "C87_truncate"
  ],
  "S43": [
   "C88_set_property"
  ],
  "S77": [
   "C88_set_property"
  ],
  "S74": [
   "C90_thumbnail_partial"
  ],
  "S47": [
   "C91_too_large"
  ],
  "O01": [
   "C63_types"
  ],
  "O03": [
   "C63_limits"
  ],
  "O04": [
   "C63_required",
   "C63_limits"
  ],
  "S16": [
   "C80_asks_and_relays",
   "C85_get_object_info"
  ],
  "S17": [
   "C80_asks_and_relays",
   "C85_get_object_info"
  ],
  "S18": [
   "C80_asks_and_relays",
   "C85_get_object_info"
  ],
  "S20": [
   "C80_asks_and_relays",
   "C85_get_object_info"
  ],
  "S21": [
   "C80_asks_and_relays",
   "C85_get_object_info"
  ],
  "S31": [
   "C80_asks_and_relays",
   "C85_get_object_info"
  ],
  "S33": [
   "C80_asks_and_relays",
   "C85_get_object_info"
  ],
  "S34": [
   "C80_asks_and_relays",
   "C85_get_object_info"
  ],
  "S35": [
   "C80_asks_and_relays",
   "C85_get_object_info"
  ],
  "S42": [
   "C80_asks_and_relays",
   "C85_get_object_info"
  ],
  "T54": [
   "C81_rewritten"
  ],
  "DD02": [
   "C94_format_request"
  ],
  "DD07": [
   "C95_never_passed_off"
  ],
  "V06": [
   "C75_events_unconfigured"
  ],
  "UF06": [
   "C92_big_object"
  ],
  "XT01": [
   "C79_documented"
  ],
  "XT03": [
   "C79_folders"
  ],
  "PD08": [
   "C63_media_partial",
   "C63_media_any"
  ],
  "PD01": [
   "C63_settable"
  ],
  "PD04": [
   "C63_device_settable"
  ]
 },
 "notes": {
  "T61": "Not covered by a claim: the model's create_file is only run for a file the storage does not know; the edit changes what an untracked file of that name holds before the data phase replaces it (C50 fixes the content afterwards).",
  "T17": "the edit only adds parentheses around a conjunct: the parsed term is the same",
  "S19": "equivalent program (equal keys): meant to survive",
  "S28": "common_ok is the lemma C28_get_object and C82 are applications of",
  "PR01": "Equivalent: get_props has checked that the handle is known, and for a known handle prop_from_storage answers OK or ObjectProp_Not_Supported only (C70_values), so the branch removed is never taken."
 }
}