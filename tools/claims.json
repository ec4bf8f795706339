{
 "C64": {
  "note": "The code does not have this property: the theorems prove concrete reachable counterexamples in the model. What the code does guarantee in this area is the property C03."
 },
 "C65": {
  "note": "The code does not have this property: the theorems prove concrete reachable counterexamples in the model. What the code does guarantee in this area is the property C05."
 },
 "C66": {
  "note": "The code does not have this property: the theorems prove concrete reachable counterexamples in the model. What the code does guarantee in this area is the property C07."
 },
 "C67": {
  "note": "The code does not have this property: the theorems prove concrete reachable counterexamples in the model. What the code does guarantee in this area is the property C08."
 },
 "C68": {
  "note": "The code does not have this property: the theorems prove concrete reachable counterexamples in the model. What the code does guarantee in this area is the property C09."
 },
 "C69": {
  "note": "The code does not have this property: the theorems prove concrete reachable counterexamples in the model. What the code does guarantee in this area is the property C10."
 },
 "C70": {
  "note": "The code does not have this property: the theorems prove concrete reachable counterexamples in the model. What the code does guarantee in this area is the property C11."
 },
 "C71": {
  "note": "The code does not have this property: the theorems prove concrete reachable counterexamples in the model. What the code does guarantee in this area is the property C11."
 },
 "C72": {
  "note": "The code does not have this property: the theorems prove concrete reachable counterexamples in the model. What the code does guarantee in this area is the property C12."
 },
 "C73": {
  "note": "The code does not have this property: the theorems prove concrete reachable counterexamples in the model. What the code does guarantee in this area is the property C14."
 },
 "C74": {
  "note": "The code does not have this property: the theorems prove concrete reachable counterexamples in the model. What the code does guarantee in this area is the property C17."
 },
 "C75": {
  "note": "The code does not have this property: the theorems prove concrete reachable counterexamples in the model. What the code does guarantee in this area is the property C18."
 },
 "C76": {
  "note": "The code does not have this property: the theorems prove concrete reachable counterexamples in the model. What the code does guarantee in this area is the property C19."
 },
 "C77": {
  "note": "The code does not have this property: the theorems prove concrete reachable counterexamples in the model. What the code does guarantee in this area is the property C20."
 },
 "C78": {
  "note": "The code does not have this property: the theorems prove concrete reachable counterexamples in the model. What the code does guarantee in this area is the property C21."
 },
 "C79": {
  "note": "The code does not have this property: the theorems prove concrete reachable counterexamples in the model. What the code does guarantee in this area is the property C22."
 },
 "C80": {
  "note": "The code does not have this property: the theorems prove concrete reachable counterexamples in the model. What the code does guarantee in this area is the property C23."
 },
 "C81": {
  "note": "The code does not have this property: the theorems prove concrete reachable counterexamples in the model. What the code does guarantee in this area is the property C24."
 },
 "C82": {
  "note": "The code does not have this property: the theorems prove concrete reachable counterexamples in the model. What the code does guarantee in this area is the property C25."
 },
 "C83": {
  "note": "The code does not have this property: the theorems prove concrete reachable counterexamples in the model. What the code does guarantee in this area is the property C25."
 },
 "C84": {
  "note": "The code does not have this property: the theorems prove concrete reachable counterexamples in the model. What the code does guarantee in this area is the property C27."
 },
 "C85": {
  "note": "The code does not have this property: the theorems prove concrete reachable counterexamples in the model. What the code does guarantee in this area is the property C28."
 },
 "C86": {
  "note": "The code does not have this property: the theorems prove concrete reachable counterexamples in the model. What the code does guarantee in this area is the property C29."
 },
 "C87": {
  "note": "The code does not have this property: the theorems prove concrete reachable counterexamples in the model. What the code does guarantee in this area is the property C29."
 },
 "C88": {
  "note": "The code does not have this property: the theorems prove concrete reachable counterexamples in the model. What the code does guarantee in this area is the property C29."
 },
 "C89": {
  "note": "The code does not have this property: the theorems prove concrete reachable counterexamples in the model. What the code does guarantee in this area is the property C30."
 },
 "C90": {
  "note": "The code does not have this property: the theorems prove concrete reachable counterexamples in the model. What the code does guarantee in this area is the property C31."
 },
 "C91": {
  "note": "The code does not have this property: the theorems prove concrete reachable counterexamples in the model. What the code does guarantee in this area is the property C32."
 },
 "C92": {
  "note": "The code does not have this property: the theorems prove concrete reachable counterexamples in the model. What the code does guarantee in this area is the property C33."
 },
 "C93": {
  "note": "The code does not have this property: the theorems prove concrete reachable counterexamples in the model. What the code does guarantee in this area is the property C35."
 },
 "C94": {
  "note": "The code does not have this property: the theorems prove concrete reachable counterexamples in the model. What the code does guarantee in this area is the property C37."
 },
 "C95": {
  "note": "The code does not have this property: the theorems prove concrete reachable counterexamples in the model. What the code does guarantee in this area is the property C38."
 },
 "C96": {
  "note": "The code does not have this property: the theorems prove concrete reachable counterexamples in the model. What the code does guarantee in this area is the property C38."
 },
 "C97": {
  "note": "The code does not have this property: the theorems prove concrete reachable counterexamples in the model. What the code does guarantee in this area is the property C39."
 },
 "C98": {
  "note": "The code does not have this property: the theorems prove concrete reachable counterexamples in the model. What the code does guarantee in this area is the property C40."
 },
 "C99": {
  "note": "The code does not have this property: the theorems prove concrete reachable counterexamples in the model. What the code does guarantee in this area is the property C41."
 },
 "C100": {
  "note": "The code does not have this property: the theorems prove concrete reachable counterexamples in the model. What the code does guarantee in this area is the property C42."
 },
 "C101": {
  "note": "The code does not have this property: the theorems prove concrete reachable counterexamples in the model. What the code does guarantee in this area is the property C43."
 },
 "C102": {
  "note": "The code does not have this property: the theorems prove concrete reachable counterexamples in the model. What the code does guarantee in this area is the property C46."
 },
 "C103": {
  "note": "The code does not have this property: the theorems prove concrete reachable counterexamples in the model. What the code does guarantee in this area is the property C48."
 },
 "C104": {
  "note": "The code does not have this property: the theorems prove concrete reachable counterexamples in the model. What the code does guarantee in this area is the property C52."
 },
 "C105": {
  "note": "The code does not have this property: the theorems prove concrete reachable counterexamples in the model. What the code does guarantee in this area is the property C53."
 },
 "C106": {
  "note": "The code does not have this property: the theorems prove concrete reachable counterexamples in the model. What the code does guarantee in this area is the property C54."
 },
 "C04": {
  "note": "False of the code. C04_panic_exactly characterises the inputs that panic; C04_no_panic_partial proves every other input safe; missing: the inputs of C04_no_panic_refuted."
 },
 "C13": {
  "note": "False of the code. C13_crashes_exactly_on is an equivalence: the listed PDUs crash in every reachable state, all others do not; the refuted theorems show each crash on a table built through the API."
 },
 "C26": {
  "note": "False of the code. C26_crashes_exactly_when is an equivalence; C26_no_crash_partial gives the simple sufficient condition; the refuted theorems show the crashes."
 },
 "C36": {
  "note": "False of the code except for SDUs that fit in one frame: sending segments correctly only in the sense of C36_send_partial (every segment carries an SDU length, C36_segmented_refuted), the receiver never reassembles (C36_receive_two_refuted). Proved: frames written, one-frame SDUs end to end."
 },
 "C44": {
  "note": "False of the code. Proved: exactly which messages can cause a bond to be stored and Pair to succeed; missing (and refuted): that Master Identification is only accepted inside a pairing."
 },
 "C45": {
  "note": "False of the code. Proved: the complete list of messages that can crash, no other call crashes, wedging is characterised exactly; the refuted theorems show the crashes and the wedge."
 },
 "C47": {
  "note": "False of the code (the file is truncated before it is written). Proved: the complete set of outcomes of a crash; lookups never damage the file."
 },
 "C58": {
  "note": "False of the code; which packets crash is characterised exactly by C57_crashes_exactly_on."
 },
 "C60": {
  "note": "False of the code for peripheral-role connections; C59_disconnected_iff_gone proves it for all other cases."
 },
 "C61": {
  "note": "False of the code when the controller reuses a handle while Close is in progress; C59_causes_of_removal gives the complete list of causes."
 },
 "C62": {
  "note": "False of the code: two ways to block the event loop are proved permanent."
 },
 "C63": {
  "note": "Proved under the stated conditions (C63_dialled_address_partial); without the grace-period condition it is false (C63_late_connection_refuted)."
 },
 "C113": {
  "note": "The code does not have this property: the theorems prove concrete reachable counterexamples in the model. What the code does guarantee in this area is the property C111."
 },
 "C114": {
  "note": "The code does not have this property: the theorems prove concrete reachable counterexamples in the model. What the code does guarantee in this area is the property C110."
 },
 "C115": {
  "note": "The code does not have this property: the theorems prove concrete reachable counterexamples in the model. What the code does guarantee in this area is the property C110."
 },
 "C118": {
  "note": "The code does not have this property: the theorems prove concrete reachable counterexamples in the model. What the code does guarantee in this area is the property C116."
 },
 "C119": {
  "note": "The code does not have this property: the theorems prove concrete reachable counterexamples in the model. What the code does guarantee in this area is the property C116."
 },
 "C120": {
  "note": "The code does not have this property: the theorems prove concrete reachable counterexamples in the model. What the code does guarantee in this area is the property C117."
 },
 "C122": {
  "note": "The code does not have this property: the theorems prove concrete reachable counterexamples in the model. What the code does guarantee in this area is the property C121."
 },
 "C123": {
  "note": "The code does not have this property: the theorems prove concrete reachable counterexamples in the model. What the code does guarantee in this area is the property C121."
 },
 "C124": {
  "note": "The code does not have this property: the theorems prove concrete reachable counterexamples in the model. What the code does guarantee in this area is the property C121."
 },
 "C127": {
  "note": "The code does not have this property: the theorems prove concrete reachable counterexamples in the model. What the code does guarantee in this area is the property C126."
 },
 "C128": {
  "note": "The code does not have this property: the theorems prove concrete reachable counterexamples in the model. What the code does guarantee in this area is the property C125."
 },
 "C129": {
  "note": "The code does not have this property: the theorems prove concrete reachable counterexamples in the model. What the code does guarantee in this area is the property C125."
 },
 "C130": {
  "note": "The code does not have this property: the theorems prove concrete reachable counterexamples in the model. What the code does guarantee in this area is the property C125."
 },
 "C135": {
  "note": "The code does not have this property: the theorems prove concrete reachable counterexamples in the model. What the code does guarantee in this area is the property C132."
 },
 "C136": {
  "note": "The code does not have this property: the theorems prove concrete reachable counterexamples in the model. What the code does guarantee in this area is the property C133."
 },
 "C137": {
  "note": "The code does not have this property: the theorems prove concrete reachable counterexamples in the model. What the code does guarantee in this area is the property C131."
 },
 "C138": {
  "note": "The code does not have this property: the theorems prove concrete reachable counterexamples in the model. What the code does guarantee in this area is the property C131."
 },
 "C139": {
  "note": "The code does not have this property: the theorems prove concrete reachable counterexamples in the model. What the code does guarantee in this area is the property C134."
 },
 "C141": {
  "note": "The code does not have this property: the theorems prove concrete reachable counterexamples in the model. What the code does guarantee in this area is the property C140."
 },
 "C144": {
  "note": "The code does not have this property: the theorems prove concrete reachable counterexamples in the model. What the code does guarantee in this area is the property C142."
 },
 "C145": {
  "note": "The code does not have this property: the theorems prove concrete reachable counterexamples in the model. What the code does guarantee in this area is the property C143."
 },
 "C146": {
  "note": "The code does not have this property: the theorems prove concrete reachable counterexamples in the model. What the code does guarantee in this area is the property C142."
 },
 "C147": {
  "note": "The code does not have this property: the theorems prove concrete reachable counterexamples in the model. What the code does guarantee in this area is the property C142."
 },
 "C151": {
  "note": "The code does not have this property: the theorems prove concrete reachable counterexamples in the model. What the code does guarantee in this area is the property C150."
 },
 "C152": {
  "note": "The code does not have this property: the theorems prove concrete reachable counterexamples in the model. What the code does guarantee in this area is the property C148."
 },
 "C153": {
  "note": "The code does not have this property: the theorems prove concrete reachable counterexamples in the model. What the code does guarantee in this area is the property C149."
 },
 "C155": {
  "note": "The code does not have this property: the theorems prove concrete reachable counterexamples in the model. What the code does guarantee in this area is the property C154."
 },
 "C160": {
  "note": "The code does not have this property: the theorems prove concrete reachable counterexamples in the model. What the code does guarantee in this area is the property C156."
 },
 "C161": {
  "note": "The code does not have this property: the theorems prove concrete reachable counterexamples in the model. What the code does guarantee in this area is the property C157."
 },
 "C162": {
  "note": "The code does not have this property: the theorems prove concrete reachable counterexamples in the model. What the code does guarantee in this area is the property C157."
 },
 "C163": {
  "note": "The code does not have this property: the theorems prove concrete reachable counterexamples in the model. What the code does guarantee in this area is the property C158."
 },
 "C164": {
  "note": "The code does not have this property: the theorems prove concrete reachable counterexamples in the model. What the code does guarantee in this area is the property C158."
 },
 "C167": {
  "note": "The code does not have this property: the theorems prove concrete reachable counterexamples in the model. What the code does guarantee in this area is the property C166."
 },
 "C168": {
  "note": "The code does not have this property: the theorems prove concrete reachable counterexamples in the model. What the code does guarantee in this area is the property C166."
 },
 "C169": {
  "note": "The code does not have this property: the theorems prove concrete reachable counterexamples in the model. What the code does guarantee in this area is the property C166."
 },
 "C171": {
  "note": "The code does not have this property: the theorems prove concrete reachable counterexamples in the model. What the code does guarantee in this area is the property C170."
 },
 "C174": {
  "note": "The code does not have this property: the theorems prove concrete reachable counterexamples in the model. What the code does guarantee in this area is the property C173."
 },
 "C177": {
  "note": "The code does not have this property: the theorems prove concrete reachable counterexamples in the model. What the code does guarantee in this area is the property C176."
 },
 "C179": {
  "note": "The code does not have this property: the theorems prove concrete reachable counterexamples in the model. What the code does guarantee in this area is the property C178."
 },
 "C181": {
  "note": "The code does not have this property: the theorems prove concrete reachable counterexamples in the model. What the code does guarantee in this area is the property C180."
 },
 "C183": {
  "note": "The code does not have this property: the theorems prove concrete reachable counterexamples in the model. What the code does guarantee in this area is the property C182."
 },
 "C185": {
  "note": "The code does not have this property: the theorems prove concrete reachable counterexamples in the model. What the code does guarantee in this area is the property C184."
 },
 "C187": {
  "note": "The code does not have this property: the theorems prove concrete reachable counterexamples in the model. What the code does guarantee in this area is the property C186."
 },
 "C188": {
  "note": "The code does not have this property: the theorems prove concrete reachable counterexamples in the model. What the code does guarantee in this area is the property C186."
 },
 "C190": {
  "note": "The code does not have this property: the theorems prove concrete reachable counterexamples in the model. What the code does guarantee in this area is the property C189."
 },
 "C192": {
  "note": "The code does not have this property: the theorems prove concrete reachable counterexamples in the model. What the code does guarantee in this area is the property C191."
 }
}