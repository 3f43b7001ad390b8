{
 "z07": {
  "theorems": [
   "C86_freeze_frame_same"
  ],
  "note": "At first C86_freeze_frame (type of the value or no value) survived the edit; C86_freeze_frame_same was added: the value is the one the mode 01 command gives for the same answer."
 },
 "h14": {
  "theorems": [
   "C46_in_full"
  ],
  "note": "At first the theorems of C46 spoke of the command's own fast flag, so a built-in command with the wrong flag survived; C46_in_full was added: the commands that must be sent in full, by name and request."
 },
 "h21": {
  "theorems": [
   "C28_absent"
  ],
  "note": "At first C28_monitor_results spoke of the model's own null test and so survived the edit; C28_absent was added, which spells out what a test without a block is."
 },
 "h29": {
  "theorems": [
   "C108_format",
   "C108_can"
  ],
  "note": "At first no theorem tied a protocol's id to the way its answers are read (the round trip theorems take it as a hypothesis), and the edit survived; C108 was added."
 },
 "m23": {
  "theorems": [
   "C15_noop"
  ],
  "note": "At first no theorem spoke of the decoder noop, which no built-in command uses (it is for commands a user defines), and the edit survived; C15_noop was added: the first message for the command, byte for byte."
 },
 "m24": {
  "theorems": [
   "C81_listing"
  ],
  "note": "At first only C49, which speaks of the bits of the response, was tried on the edit, and it survived; C81_listing was added: the value of a listing is the bits on the wire."
 },
 "j12": {
  "theorems": [
   "C66_signed",
   "C66_signed_threshold"
  ],
  "note": "At first C66 spoke of voltages without a sign only, and the edit survived; C66_signed and C66_signed_threshold were added."
 },
 "sc22": {
  "theorems": [
   "C23_unknown_id"
  ],
  "note": "No built-in command has an unknown units id, so the edit survived at first; C23_unknown_id (for a user's own commands) was added."
 },
 "h17": {
  "theorems": [
   "C63_by_mode"
  ],
  "note": "theorem added after the edit was not caught"
 },
 "sc26": {
  "theorems": [
   "C63_no_name"
  ],
  "note": "theorem added after the edit was not caught"
 },
 "j11": {
  "theorems": [
   "C66_underscores"
  ],
  "note": "theorem added after the edit was not caught"
 }
}