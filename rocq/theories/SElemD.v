(** Reception properties: what XML can carry. *)
From Verif Require Import Base MNum SNum MXml SXml MEnum MRefTab MRef SEnum MCodec SCodec MElem0 MElem1 SElem1 MElemA MElemB MElemC MElem2 MElemD.

Definition good_ReceptionComSpecProps (e : ReceptionComSpecProps) : Prop :=
  opt_ok good_real (ReceptionComSpecProps_data_update_period e) /\ opt_ok good_real (ReceptionComSpecProps_timeout e).
