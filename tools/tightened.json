{
 "a05": {
  "tightened": [
   "C27_request_registers",
   "C41_request_answered_partial"
  ],
  "note": "C27 and C41 took the waiter's sequence number as given; the added theorems start at the request itself."
 },
 "p08": {
  "tightened": [
   "C20_request_written",
   "C21_request_written",
   "C22_multicast_written",
   "C22_broadcast_written"
  ],
  "note": "C22 spoke about the object built from given arguments; the added theorems speak about the bytes that request, mrequest and broadcast write."
 },
 "m34": {
  "tightened": [
   "C71_command_written"
  ],
  "note": "C68 and C71 spoke about the object built from the call; the added theorem speaks about the bytes of a command and its parameters."
 },
 "m35": {
  "tightened": [
   "C40_bytes_to_delivery",
   "C42_bytes_to_join"
  ],
  "note": "C40 and C41 spoke about the list of effects of the handler; the added theorems give the exact history after receiving the bytes."
 },
 "r26": {
  "tightened": [
   "C49_redone_on_a_working_stick"
  ],
  "note": "C49 supposed that the next start returns, so a start that fails on a stick without mark did not contradict it; the added theorem has the next start complete on every working stick."
 },
 "r41": {
  "tightened": [
   "C48_created_unset"
  ],
  "note": "C48 counts writes only; the added theorem speaks about the creation of the item."
 },
 "v21": {
  "tightened": [
   "C124_told_over_the_link"
  ],
  "note": "A wait that ends with an error now needs evidence as well."
 },
 "v22": {
  "tightened": [
   "C132_last_attempt"
  ],
  "note": "Nothing said what a coroutine does after an attempt that ended well; C132 was added."
 },
 "v32": {
  "tightened": [],
  "note": "C131 was first listed as broken too; its claim (at least five seconds pass) stays true for the edited program, so it was struck off the list."
 },
 "v33": {
  "tightened": [],
  "note": "C134 was first listed as broken too; it concerns only attempts that make their requests, not those that sleep, and stays true, so it was struck off the list."
 },
 "v45": {
  "tightened": [],
  "note": "C20 was first listed as broken too; it concerns the bytes of ZDO requests, which the edit does not touch, so it was struck off the list."
 },
 "a-Buffalo-6293-KeyError": {
  "tightened": [],
  "note": "Same behaviour: a list parameter always follows its length in the command table, so the branch is not reached."
 },
 "a-App-1886-ValueError": {
  "tightened": [],
  "note": "Same behaviour: the messages that are looked up by nwk address all carry it, so the branch is not reached."
 },
 "a-Whole-9421-false": {
  "tightened": [
   "C153_cancelled",
   "C153_for_good"
  ],
  "note": "No theorem said that a sleeping coroutine can be cancelled before its time; C153 was added."
 },
 "a-StartZnp-6295-263": {
  "tightened": [
   "C152_start_says",
   "C152_form_says",
   "C152_startup_says"
  ],
  "note": "The profile and device numbers of the endpoints were in no theorem; C152 was added."
 },
 "a-StartZnp-6466-261": {
  "tightened": [
   "C152_start_says",
   "C152_form_says",
   "C152_startup_says"
  ],
  "note": "The profile and device numbers of the endpoints were in no theorem; C152 was added."
 },
 "a-StartZnp-6628-6": {
  "tightened": [
   "C152_start_says",
   "C152_form_says",
   "C152_startup_says"
  ],
  "note": "The profile and device numbers of the endpoints were in no theorem; C152 was added."
 },
 "a-Port-530-concat": {
  "tightened": [
   "C148_bytes"
  ],
  "note": "C148_reads holds with or without the first byte (the stick skips it); C148_bytes was added."
 },
 "a-Types-2263-1": {
  "tightened": [],
  "note": "The constant was defined twice (Nv.v had its own), and this one was not used; the other one was removed."
 },
 "a-Uart-401-249": {
  "tightened": [],
  "note": "Same behaviour: uart.py defines the constant and does not use it."
 },
 "a-Zpi-4575-1": {
  "tightened": [],
  "note": "Same behaviour: the branch is for a group or extended request without an address mode, and the command is chosen by whether there is one."
 },
 "a-StartZnp-6550-49245": {
  "tightened": [
   "C152_start_says",
   "C152_form_says",
   "C152_startup_says"
  ],
  "note": "The profile and device numbers of the endpoints were in no theorem; C152 was added."
 },
 "a-Types-2391-3": {
  "tightened": [],
  "note": "A definition that nothing used; it was removed."
 },
 "a-Machine-24818-1": {
  "tightened": [],
  "note": "Same behaviour: the numbers of waiters are internal and are only compared with each other and with None (api.py:147)."
 },
 "a-CmdTable-18906-scanchannelsx": {
  "tightened": [],
  "note": "The name of a parameter of a command that the program never sends by itself; the table is transcribed data (tools/gen_definition.py reads it from definition.py)."
 },
 "n02": {
  "tightened": [],
  "note": "C40 was at first listed by mistake; the order of join and announcement is C42, which fails."
 },
 "zz11": {
  "tightened": [],
  "note": "C116, about links and not about loops, was at first listed by mistake; that a lost port starts one loop is C77, which fails."
 },
 "r04": {
  "tightened": [],
  "note": "C89 was listed by mistake: it speaks about status 0 only, which this program never returns; C45 and C103 say when it is returned."
 },
 "r22": {
  "tightened": [],
  "note": "C75 was listed by mistake: this command can be sent, too; what it says is C55."
 },
 "zz09": {
  "tightened": [],
  "note": "C153 was listed by mistake: it does not say how long the sleep between attempts is; C135 and C141 do, and failed."
 }
}