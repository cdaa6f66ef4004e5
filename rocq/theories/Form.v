(** * Form: form_network called by a user of the application (application.py:126-137), as a program over requests *)
From Verif Require Import Base Types Api App Nv StartZnp AppStart.

(** [version]: self.version["product"] if self.version is filled; before that the lookup raises KeyError, before anything is
    sent.  The arguments channel, pan_id and extended_pan_id are not used by the body.  [self._api] is looked up at the same
    moment; None cannot be met here, because self.version is filled by start-up after self._api (application.py:92, 99). *)
Definition form_call (version : option Z) (channel : Z) (pan_id extended_pan_id : option Z) (c : nwk_config) : prog start_result :=
  match version with
  | Some product => form_network product c
  | None => DRaise KeyError
  end.
