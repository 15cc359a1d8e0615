#!/usr/bin/env python3
"""usage: log_mutants.py OUT.jsonl ... : append the results of mutate.py to seeded/LOG.jsonl (each id once)"""
import json, sys
LOG = "/verif/seeded/LOG.jsonl"
TIGHT = {"U8": ["C03_random_choice_tight"], "A14": ["C17_event_power_own"], "A42": ["C59_peak_or_off_peak", "C59_fixed"], "A29": ["C59_peak_or_off_peak", "C59_fixed"],
         "A16": ["C06_window_tight"], "A24": ["C08_events_exact"], "A25": ["C08_events_exact"],
         "R6": ["C68_declarations"], "D3": ["C72_values"], "B3-S3": ["C74_listed", "C74_collected_partial"], "B3-S5": ["C74_listed", "C74_collected_partial"], "B3-Q7": ["C45_default_name"], "B3-Q8": ["C45_default_name"], "B3-R20": ["C68_exception"], "B6-18": ["C84_text"], "B6-34": ["C79_object", "C79_object_or_text", "C79_objects"], "B6-1": ["C31_days_known", "C31_days_known_dates"], "T9": ["C40_saved_rows", "C40_nothing_to_save"]}
EQUIV = {"B6-32", "R2", "A32", "A33", "A40", "S12", "P6", "S5", "B3-Q4", "B3-E5"}
man = {t for c in json.load(open("/verif/MANIFEST.json"))["claims"] for t in c["theorems"]}
have = {json.loads(l)["id"]: l for l in open(LOG)}
for f in sys.argv[1:]:
    for l in open(f):
        m = json.loads(l)
        if m.get("error"): continue  # the edited definition was refused: not an experiment
        d = {"id": m["id"], "definition": m["file"] + ": " + m["definition"], "edit": m["edit"], "breaks": m["breaks"],
             "theorems_failed": m["claim_theorems_lost"], "proofs_failed": m["failed_proofs"] or [],
             "theorems_that_still_hold": m["claim_theorems_that_still_hold"],
             "theorems_tightened": [t for t in TIGHT.get(m["id"], []) if t in man]}
        if m["id"] in EQUIV: d["note"] = "the edited program behaves as before: the theorems may hold"
        if m["id"] == "P11": d["note"] = "C49 states the sum in exact arithmetic, where the compensation is zero; no claim about its rounding error"
        if m["id"] == "B4-D13": d["note"] = "week dates are outside the model (Unmodelled): the edit changes no modelled input"
        have[m["id"]] = json.dumps(d)
open(LOG, "w").write("\n".join(x.strip() for x in have.values()) + "\n")
print(len(have))
