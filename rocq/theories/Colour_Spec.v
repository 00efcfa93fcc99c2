(* Colours of the items of a page (ISO 32000-1, 8.6.3): the families of colour spaces, and what colour values may be.
   Of the models only the types of items and colours. *)
From Coq Require Import String.
From Verif Require Import Base Obj Num Interp_Model.
Open Scope Z_scope.
Import ListNotations.

(* the eleven families of colour spaces *)
Definition families : list string :=
  ["DeviceGray"; "DeviceRGB"; "DeviceCMYK"; "CalGray"; "CalRGB"; "Lab"; "ICCBased"; "Indexed"; "Pattern"; "Separation"; "DeviceN"]%string.
(* no colour space, or one of a known family *)
Definition Known (c : option cspace) : Prop := forall cs, c = Some cs -> exists n, In n families /\ cs_name cs = ON n.
Section colours.
  Context (V : obj -> Prop).     (* what values there may be *)
  Definition color_ok (c : color) : Prop := Known (c_space c) /\ Forall V (c_vals c).
  Inductive coloured : item -> Prop :=
  | co_text b : Forall (fun cb => color_ok (cb_color cb)) (tb_blocks b) -> coloured (IText b)
  | co_curve k w p b stroke fill e : color_ok stroke -> color_ok fill -> coloured (ICurve k w p b stroke fill e)
  | co_form s b l : Forall coloured l -> coloured (IXObj s b l)
  | co_image s b : coloured (IImage s b)
  | co_none : coloured INone.
End colours.
