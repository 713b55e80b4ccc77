(** The groups a user of the library can get hold of by parsing: what one of the alternatives makes
    of some text, the unknown group, and whatever these become when further text is appended. *)
From Verif Require Import Prim Values Weather Groups1 Groups3 Groups4 Parser.

Inductive Reachable : Group -> Prop :=
| Reach_unknown : Reachable (GUnknown mkUnknown)
| Reach_parse : forall p s part md g,
    In p alternatives -> p s part md = Ok (Some g) -> Reachable g
| Reach_append : forall g s part md g' a,
    Reachable g -> Group_append g s part md = Ok (g', a) -> Reachable g'.

(** The WeatherPhenomena values the public interface gives out. *)
Inductive WpObtainable : WeatherPhenomena -> Prop :=
| Wpo_default : WpObtainable WeatherPhenomena_default
| Wpo_notReported : forall recent, WpObtainable (Wp_notReported recent)
| Wpo_fromString : forall s enableQualifiers p,
    Wp_fromString s enableQualifiers = Ok (Some p) -> WpObtainable p
| Wpo_fromBeginEnd : forall s t previous p, WpObtainable previous ->
    Wp_fromWeatherBeginEndString s t previous = Ok (Some p) -> WpObtainable p
| Wpo_inGroup : forall g p, Reachable (GWeather g) -> In p (wx_w g) -> WpObtainable p.
