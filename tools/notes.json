{
 "C04": {"note": "The Follows flag is lost on the wire (C04_follows_refuted): finding."},
 "C05": {"note": "Durations of 4.295 s or more are corrupted (C05_default_durations_refuted): finding."},
 "C10": {"note": "Metadata shorter than the first frame is sent twice (C10_metadata_duplicated_refuted): finding."}
}
