(** * Port: what goes out of the serial port of one API object *)
From Verif Require Import Base Types Uart Machine.

(** uart.py:207-210: connect writes one byte as soon as the port is open, before API.connect (api.py:100-103) stores the
    gateway in [_uart]; until then request_raw writes nothing.  An API object connects once (api.py:87-91). *)
Definition greeting : list Z := [239].
(** everything written to the port of an API object: the greeting, then what its gateway wrote *)
Definition port_bytes (s : st) : list Z := greeting ++ concat (s_wire s).
