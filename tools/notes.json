{
 "C09": "REFUTED: an uninterpretable frame makes Gateway.data_received raise, and every frame behind it in the same read is lost. Partial theorem: with one message per read the others all arrive.",
 "C10": "REFUTED for empty payloads: the parser wants more than five bytes, so an empty frame is delivered with the byte after it. Partial theorem: immediate for non-empty payloads.",
 "C11": "Everything but the last clause is proved. REFUTED clause: the 250-byte limit (MaxDataSize) is never checked; 251..255 bytes are written. Exact behaviour: C109.",
 "C63": "REFUTED: a repeated valid frame whose payload looks like a frame start is misread for ever, with valid checksums.",
 "C19": "REFUTED: nwkAddrRsp, ieeeAddrRsp, mgmtNwkDiscRsp, mgmtRtgRsp, mgmtBindRsp (and four requests, one response) never decode. Partial theorem: the exact list, everything else decodes.",
 "C23": "REFUTED: every profile other than 260 (e.g. light link, green power) is translated as a ZDO command. Partial theorem: profile 260 goes out as AF. Exact behaviour: C106.",
 "C64": "REFUTED for NWK_addr_req and IEEE_addr_req: the destination is inserted into the address field and all arguments are shifted. Partial theorem: all requests starting with a destination are intact. Exact behaviour: C110.",
 "C24": "REFUTED clause: creating the waiter raises KeyError for every nwkAddrReq, ieeeAddrReq and serverDiscReq. Partial theorems: exact matching for data requests and all requests with a destination; no waiter where no reply is defined. Exact behaviour: C107.",
 "C41": "REFUTED for mgmtLqiRsp: the message is re-encoded first, which clears the reserved bits of each neighbour entry. Partial theorem: all other replies byte for byte, mgmtLqiRsp up to reserved bits. Exact behaviour: C105.",
 "C44": "REFUTED: every incomingMsgExt is dropped silently, since its 64-bit source is looked up as a short address. Exact behaviour: C108.",
 "C26": "REFUTED for sequence number 0: a waiter carrying 0 does not stop the search, so one reply completes several requests. Partial theorem (also C65): exact if 0 counts as no sequence number.",
 "C28": "REFUTED for sequence number 0 (falsy in Python): the request is accepted and its reply completes the waiter, but nothing is handed to the application. Partial theorem: delivered for 1..255. Exact behaviour: C104.",
 "C34": "REFUTED: if the reply waiter was cleaned up while the request waited for the link, the caller gets a KeyError instead of the status. Partial theorems: reported whenever that waiter is still registered or none was created, also from the received bytes on. Exact behaviour: C70.",
 "C35": "REFUTED: the first response to the command completes whoever waits, even if it belongs to a request that timed out. Partial theorem: only responses to the same command are taken.",
 "C36": "REFUTED clause: admission order; a newcomer can take a slot before the longest waiter runs (asyncio.Semaphore up to Python 3.9). Everything else proved (also C66).",
 "C45": "REFUTED: a refusal after the reply waiter was cleaned up is reported as KeyError. Partial theorems: a reported status is the stick's; accepted gives 0; refused gives the status while the waiter is registered.",
 "C50": "REFUTED: once the items that start compares are written, an interrupted re-initialisation (e.g. before the new network is formed) is taken for complete and start resumes. Partial theorem: redone whenever a compared item still differs. It happens on the link from every such stored state: C156. It cannot happen to a stick that was unmarked when the configuration was first applied: C158.",
 "C51": "REFUTED clause: PAN id and extended PAN id of a marked Z-Stack 1.2 stick are never enforced, nor on Z-Stack 3 if FFFF is stored. Partial theorem: all other settings always, these after an initialisation, and the next start resumes without writing. Exact behaviour: C72. It happens on the link from every such stored state: C156. It cannot happen to a stick that was unmarked when the configuration was first applied: C158.",
 "C54": "REFUTED: the wait for the active endpoint list has no address, so the list of any other device is taken for the stick's own. Partial theorems: the claim if the list is the stick's; true cluster counts always. Exact behaviour: C74. It happens on the link from every such stored state: C156.",
 "C58": "REFUTED: a port lost in the first second after opening raises AttributeError (the API has no application yet) and no reconnect is started. Partial theorems: the claim for ports handed over to start-up; the second half always. Exact behaviour: C77.",
 "C59": "REFUTED: a port lost while a reconnecting start-up makes its requests starts a second loop, and both may succeed, leaving two open ports. Partial theorem: never in calm histories. Exact conditions: C78.",
 "C62": "REFUTED: if opening takes a second or more, the limit expires before the API knows the port, which stays open. Partial theorems: results always as claimed, closed whenever opening took less than a second. Exact behaviour: C79.",
 "C113": "REFUTED: each version answer makes a new semaphore; a request that waited on the old one is admitted to the new stick beside those of the new one (3 where 2 are allowed). Partial theorem: the limit holds per semaphore object, and all slots ever made bound the total. Exact behaviour: C114.",
 "C120": "REFUTED: after a reconnect a request keeps the number of a reply waiter of the old API object; its refusal completes the waiter with the same number in the new one, which belongs to another request, and that request's reply is then dropped. Partial theorem: true while the waiter was made by the API object the request was sent to, or there is none. Exact behaviour: C121.",
 "C129": "REFUTED: each part evaluates self._api anew, so if another start-up has finished connecting meanwhile the first one pings one stick and asks another for its version. Partial theorem: each part is made to one API object. Exact behaviour: C130."
}
