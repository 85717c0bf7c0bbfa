theories/CommandFacts.v
theories/SpecResult.v
theories/ResultFacts.v
