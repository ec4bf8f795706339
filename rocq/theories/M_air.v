(** Model of the accessors of an Advertisement that read its packet (linux/hci/adv.go:87-126, adv_werr.go:10-59); a.p is never nil in
    an Advertisement of newAdvertisement, so the error branches are dead. *)
Require Import Verif.Base Verif.M_adv Verif.M_advrep.

(** adv.go:88-91, adv_werr.go:10-15 *)
Definition LocalName (a : advert) : bytes := pk_local_name (ad_pm a).
(** adv.go:94-97, adv_werr.go:17-22 *)
Definition ManufacturerData (a : advert) : bytes := pk_mfg (ad_pm a).
(** adv.go:100-103, adv_werr.go:24-29 *)
Definition ServiceData (a : advert) : go (list (bytes * bytes)) := pk_service_data (ad_pm a).
(** adv.go:106-109, adv_werr.go:31-36 *)
Definition Services (a : advert) : list bytes := pk_uuids (ad_pm a).
(** adv.go:112-115, adv_werr.go:38-43: the same list *)
Definition OverflowService (a : advert) : list bytes := pk_uuids (ad_pm a).
(** adv.go:124-127, adv_werr.go:54-59 *)
Definition SolicitedService (a : advert) : list bytes := pk_sol (ad_pm a).
