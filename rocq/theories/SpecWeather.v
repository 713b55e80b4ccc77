(** Vocabulary for statements about weather phenomena: proper enumerators, and phenomena made of
    them. *)
From Verif Require Import Prim Regex Float Values Weather.

Definition proper_q (q : WpQualifier) : Prop := match q with Q_other _ => False | _ => True end.
Definition proper_d (d : WpDescriptor) : Prop := match d with D_other _ => False | _ => True end.
Definition proper_w (w : WpWeather) : Prop := match w with W_other _ => False | _ => True end.
Definition proper_e (e : WpEvent) : Prop := match e with Ev_other _ => False | _ => True end.

(** A phenomenon whose four observers return the given values. *)
Definition shows (p : WeatherPhenomena) (q : WpQualifier) (d : WpDescriptor) (w : list WpWeather)
  (e : WpEvent) : Prop :=
  Wp_qualifier p = q /\ Wp_descriptor p = d /\ Wp_weather p = w /\ Wp_event p = e.
