seeded/RESULTS.jsonl
.nia.cache
