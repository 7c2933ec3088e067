{"M80": {"tightened": ["C55_content_range"], "note": "survived: no theorem said what the note shows; C55 (what notes show) was added"}}
